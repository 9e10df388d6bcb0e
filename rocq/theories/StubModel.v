(** * Model of pyfakefs/mox3_stubout.py (StubOutForTesting), lines 29-162.

    Python objects are numbered.  Modelled: modules, classes with their method
    resolution order, and instances; every one has a [__dict__].  Not modelled:
    metaclasses, data descriptors (properties), __getattr__/__setattr__ hooks,
    __slots__, C types that refuse setattr.  A classmethod or staticmethod
    object is its function (their identity is not observed). *)
From Verif Require Import Str.

Definition pyobj := nat.
Inductive value :=
| VNone                                  (* None *)
| VObj (n : nat)                         (* an object that is no descriptor *)
| VFun (n : nat)                         (* a function *)
| VStatic (v : value)                    (* staticmethod(v) *)
| VClass (v : value)                     (* classmethod(v) *)
| VBound (self : pyobj) (v : value).     (* the method v of self *)
Inductive sort :=
| SModule
| SClass (mro : list pyobj)              (* inspect.getmro(cls): the class first *)
| SInst (cls : pyobj).
Definition world := pyobj -> sort.       (* constant *)
Definition dicts := pyobj -> str -> option value.
Definition upd (d : dicts) (o : pyobj) (a : str) (v : value) : dicts :=
  fun o' a' => if Nat.eqb o' o && str_eqb a' a then Some v else d o' a'.

Inductive perr := AttributeError.
Definition pres (A : Type) := (A + perr)%type.

Section Stub.
Variable W : world.

(** inspect.getmro(obj) or inspect.getmro(obj.__class__), lines 83-86 *)
Definition mro_of (o : pyobj) : list pyobj :=
  match W o with
  | SModule => []
  | SClass m => m
  | SInst c => match W c with SClass m => m | _ => [c] end
  end.
(** the first class of the list with the attribute *)
Fixpoint lookup (d : dicts) (a : str) (l : list pyobj) : option value :=
  match l with [] => None | c :: l' => match d c a with Some v => Some v | None => lookup d a l' end end.
(** reading an attribute found in a class: through the class [self] itself, or through an instance *)
Definition bind_class (c : pyobj) (v : value) : value :=
  match v with VStatic f => f | VClass f => VBound c f | _ => v end.
Definition bind_inst (i c : pyobj) (v : value) : value :=
  match v with VStatic f => f | VClass f => VBound c f | VFun n => VBound i (VFun n) | _ => v end.
(** the builtin getattr, for the objects modelled *)
Definition getattr (d : dicts) (o : pyobj) (a : str) : option value :=
  match W o with
  | SModule => d o a
  | SClass m => option_map (bind_class o) (lookup d a m)
  | SInst c => match d o a with Some v => Some v | None => option_map (bind_inst o c) (lookup d a (mro_of o)) end
  end.
Definition is_class (o : pyobj) : bool := match W o with SClass _ => true | _ => false end.
Definition is_module (o : pyobj) : bool := match W o with SModule => true | _ => false end.

(** The stubs: line 47 self.cache, line 48 self.stubs, and the attributes of all objects.
    The lists have the last call first (the code appends and reverses). *)
Record stubber := mkstub { st_dicts : dicts; st_stubs : list (pyobj * str * value); st_cache : list (pyobj * str * value) }.

(** smart_set, lines 54-113.  The loop over the reversed method resolution
    order asks getattr(obj, ...) - not the class - each time, so it ends with
    the class of [obj] itself whenever the attribute exists. *)
Definition smart_set (o : pyobj) (a : str) (new : value) (s : stubber) : pres stubber :=
  let d := st_dicts s in
  let found :=
    if is_module o || (negb (is_class o) && match d o a with Some _ => true | None => false end)
    then match getattr d o a with Some v => Some (o, v) | None => None end
    else fold_left (fun acc cls => match getattr d o a with Some v => Some (cls, v) | None => acc end) (rev (mro_of o)) None
  in
  match found with
  | None | Some (_, VNone) => inr AttributeError
  | Some (orig, v) =>
      let v' := match d o a with Some (VStatic _) => VStatic v | _ => v end in
      inl (mkstub (upd d orig a new) ((orig, a, v') :: st_stubs s) (st_cache s))
  end.
(** setattr for every entry, the last call first: lines 122-125 and 157-161 *)
Fixpoint undo (l : list (pyobj * str * value)) (d : dicts) : dicts :=
  match l with [] => d | (o, a, v) :: l' => undo l' (upd d o a v) end.
(** smart_unset_all, lines 115-127 *)
Definition smart_unset_all (s : stubber) : stubber := mkstub (undo (st_stubs s) (st_dicts s)) [] (st_cache s).
(** set, lines 129-150; classmethod(old_child.__func__) *)
Definition func_of (v : value) : value := match v with VBound _ f | VClass f | VStatic f => f | _ => v end.
Definition set (o : pyobj) (a : str) (new : value) (s : stubber) : pres stubber :=
  let d := st_dicts s in
  match getattr d o a with
  | None => inr AttributeError
  | Some v =>
      let v' := match d o a with Some (VStatic _) => VStatic v | Some (VClass _) => VClass (func_of v) | _ => v end in
      inl (mkstub (upd d o a new) (st_stubs s) ((o, a, v') :: st_cache s))
  end.
(** unset_all, lines 152-162 *)
Definition unset_all (s : stubber) : stubber := mkstub (undo (st_cache s) (st_dicts s)) (st_stubs s) [].

(** Calls; [Assign] is a plain assignment o.a = v by the program under test. *)
Inductive call := SmartSet (o : pyobj) (a : str) (v : value) | Set_ (o : pyobj) (a : str) (v : value) | SmartUnsetAll | UnsetAll | Assign (o : pyobj) (a : str) (v : value).
Definition or_same (r : pres stubber) (s : stubber) : stubber := match r with inl s' => s' | inr _ => s end.
Definition do_call (c : call) (s : stubber) : stubber :=
  match c with
  | SmartSet o a v => or_same (smart_set o a v s) s
  | Set_ o a v => or_same (set o a v s) s
  | SmartUnsetAll => smart_unset_all s
  | UnsetAll => unset_all s
  | Assign o a v => mkstub (upd (st_dicts s) o a v) (st_stubs s) (st_cache s)
  end.
Definition do_calls (l : list call) (s : stubber) : stubber := fold_left (fun s c => do_call c s) l s.
(** StubOutForTesting(), lines 46-48 *)
Definition new_stubs (d : dicts) : stubber := mkstub d [] [].
(** __del__, lines 50-52 *)
Definition del (s : stubber) : stubber := unset_all (smart_unset_all s).
End Stub.
