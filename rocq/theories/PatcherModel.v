(** * Model of Patcher and DynamicPatcher, pyfakefs/fake_filesystem_unittest.py
    lines 340-927.

    Modelled: setUp, start_patching, patch_modules, patch_functions,
    patch_defaults, tearDown, stop_patching, unset_defaults, pause, resume,
    DynamicPatcher.__init__, cleanup, needs_patch, find_spec, load_module; the
    attributes of modules (StubModel.v), the __defaults__ of functions,
    sys.modules and sys.meta_path.
    Simplified: what _find_modules (638-687) finds is a parameter, one
    for each call of setUp; so are the fake modules that _refresh makes.
    Not modelled: reloading of modules_to_reload, warnings, doctest globals,
    the fake file system itself. *)
From Verif Require Import Str StubModel.

(** What the interpreter shows *)
Record interp := mki {
  i_dicts : dicts;                     (* attributes of modules *)
  i_defaults : nat -> list value;      (* fct.__defaults__ *)
  i_modules : str -> option value;     (* sys.modules *)
  i_meta : list nat                    (* sys.meta_path; the finders are numbered *)
}.
(** What a Patcher finds and makes; [nat]: the number of the setUp() call. *)
Record setup := mkset {
  s_world : world;
  (* FS_MODULES and SKIPPED_FS_MODULES: attribute name, module, name of the module it refers to *)
  s_fs_modules : nat -> list (str * pyobj * str);
  s_skipped : nat -> list (str * pyobj * str);
  (* FS_FUNCTIONS: attribute name, the fake method, module *)
  s_functions : nat -> list (str * value * pyobj);
  (* FS_DEFARGS: function, index, the original function; and the fake method *)
  s_defargs : nat -> list (nat * nat * value * value);
  (* self.fake_modules and self.unfaked_modules after _refresh *)
  s_fakes : nat -> list (str * value);
  s_unfaked : nat -> list (str * value);
  s_dyn : nat;                         (* the DynamicPatcher as a finder *)
  s_linecache : pyobj; s_tokenize : pyobj; s_open : value
}.
(** The attributes of a Patcher: _patching, _stubs, and of its _dyn_patcher
    sysmodules and _loaded_module_names *)
Record patcher := mkp {
  p_gen : nat;
  p_patching : bool;
  p_stubs : list (pyobj * str * value);
  p_saved : list (str * value);
  p_loaded : list str
}.
(** __init__, 486-496 *)
Definition new_patcher : patcher := mkp 0 false [] [] [].

Section Patcher.
Variable S : setup.
Definition st (i : interp) (p : patcher) : stubber := mkstub (i_dicts i) (p_stubs p) [].
(** self._stubs.smart_set for every entry of a list *)
Fixpoint smart_sets (l : list (pyobj * str * value)) (s : stubber) : pres stubber :=
  match l with
  | [] => inl s
  | (o, a, v) :: l' => match smart_set (s_world S) o a v s with inl s' => smart_sets l' s' | inr e => inr e end
  end.
(** fake_modules[attr]: found in the cases modelled (KeyError otherwise) *)
Definition fake_of (l : list (str * value)) (n : str) : value := match assoc n l with Some v => v | None => VNone end.
(** patch_modules, 761-770, and patch_functions, 753-759: the attributes to replace, in this order *)
Definition patches (g : nat) : list (pyobj * str * value) :=
  map (fun '(name, module, attr) => (module, name, fake_of (s_fakes S g) attr)) (s_fs_modules S g) ++
  flat_map (fun '(name, module, attr) => match assoc attr (s_unfaked S g) with Some v => [(module, name, v)] | None => [] end) (s_skipped S g) ++
  map (fun '(name, v, module) => (module, name, v)) (s_functions S g).
(** the tuple with one value replaced, 777-784 and 813-820 *)
Fixpoint replace_nth (l : list value) (i : nat) (v : value) : list value :=
  match l, i with [], _ => [] | _ :: l', 0 => v :: l' | x :: l', Datatypes.S i' => x :: replace_nth l' i' v end.
Definition set_default (f i : nat) (v : value) (d : nat -> list value) : nat -> list value :=
  fun f' => if Nat.eqb f' f then replace_nth (d f) i v else d f'.
(** patch_defaults, 772-784, and unset_defaults, 812-821 *)
Fixpoint patch_defaults (l : list (nat * nat * value * value)) (d : nat -> list value) : nat -> list value :=
  match l with [] => d | (f, i, ft, fake) :: l' => patch_defaults l' (set_default f i fake d) end.
Fixpoint unset_defaults (l : list (nat * nat * value * value)) (d : nat -> list value) : nat -> list value :=
  match l with [] => d | (f, i, ft, fake) :: l' => unset_defaults l' (set_default f i ft d) end.
Definition set_mod (m : str -> option value) (n : str) (v : option value) : str -> option value :=
  fun n' => if str_eqb n' n then v else m n'.
Fixpoint set_mods (l : list (str * value)) (m : str -> option value) : str -> option value :=
  match l with [] => m | (n, v) :: l' => set_mods l' (set_mod m n (Some v)) end.
Fixpoint del_mods (l : list str) (m : str -> option value) : str -> option value :=
  match l with [] => m | n :: l' => del_mods l' (set_mod m n None) end.
(** DynamicPatcher.__init__, 878-892: the loop saves and deletes what is in
    sys.modules, then all fake modules are put there.  needs_patch compares a
    type with an object, which is never equal: it is true for these names. *)
Definition saved_modules (g : nat) (m : str -> option value) : list (str * value) :=
  flat_map (fun nv => match m (fst nv) with Some v => [(fst nv, v)] | None => [] end) (s_fakes S g).
(** start_patching, 739-751.  Before the first setUp() there are no stubs and
    no fake modules: an error (also when there is nothing to patch) *)
Definition start_patching (ip : interp * patcher) : pres (interp * patcher) :=
  let (i, p) := ip in
  if p_patching p then inl ip else
  let g := p_gen p in
  if Nat.eqb g 0 then inr AttributeError else
  match smart_sets (patches g) (st i p) with
  | inr e => inr e
  | inl s => inl (mki (st_dicts s) (patch_defaults (s_defargs S g) (i_defaults i)) (set_mods (s_fakes S g) (i_modules i)) (s_dyn S :: i_meta i),
                  mkp g true (st_stubs s) (saved_modules g (i_modules i)) [])
  end.
(** stop_patching, 803-810; cleanup, 894-907: the saved modules are put back,
    the modules loaded meanwhile are deleted *)
Definition stop_patching (ip : interp * patcher) : interp * patcher :=
  let (i, p) := ip in
  if p_patching p then
    (mki (st_dicts (smart_unset_all (st i p))) (unset_defaults (s_defargs S (p_gen p)) (i_defaults i))
         (del_mods (p_loaded p) (set_mods (p_saved p) (i_modules i))) (tl (i_meta i)),
     mkp (p_gen p) false [] [] [])
  else ip.
(** setUp, 707-737; _refresh, 689-705 *)
Definition set_up (ip : interp * patcher) : pres (interp * patcher) :=
  let (i, p) := ip in
  let i1 := mki (st_dicts (smart_unset_all (st i p))) (i_defaults i) (i_modules i) (i_meta i) in
  match start_patching (i1, mkp (Datatypes.S (p_gen p)) (p_patching p) [] (p_saved p) (p_loaded p)) with
  | inr e => inr e
  | inl (i2, p2) =>
      inl (mki (upd (upd (i_dicts i2) (s_linecache S) (L "open") (s_open S)) (s_tokenize S) (L "_builtin_open") (s_open S))
               (i_defaults i2) (i_modules i2) (i_meta i2), p2)
  end.
(** the program: import of a module that is not loaded yet (find_spec 919-922,
    load_module 924-927), importlib.reload, an assignment *)
Definition is_fake (p : patcher) (n : str) : bool := match assoc n (s_fakes S (p_gen p)) with Some _ => true | None => false end.
Definition import_ (n : str) (v : value) (ip : interp * patcher) : interp * patcher :=
  let (i, p) := ip in
  match i_modules i n with
  | Some _ => ip
  | None =>
      if p_patching p then
        if is_fake p n then (mki (i_dicts i) (i_defaults i) (set_mod (i_modules i) n (Some (fake_of (s_fakes S (p_gen p)) n))) (i_meta i), p)
        else (mki (i_dicts i) (i_defaults i) (set_mod (i_modules i) n (Some v)) (i_meta i), mkp (p_gen p) true (p_stubs p) (p_saved p) (n :: p_loaded p))
      else (mki (i_dicts i) (i_defaults i) (set_mod (i_modules i) n (Some v)) (i_meta i), p)
  end.
Definition reload (n : str) (ip : interp * patcher) : interp * patcher :=
  let (i, p) := ip in
  match i_modules i n with
  | Some _ => if p_patching p && negb (is_fake p n) then (i, mkp (p_gen p) true (p_stubs p) (p_saved p) (n :: p_loaded p)) else ip
  | None => ip
  end.
Inductive event := SetUp | TearDown | Pause | Resume | Import (n : str) (v : value) | Reload (n : str) | SetAttr (o : pyobj) (a : str) (v : value).
(** pause 823-830, resume 832-838, tearDown 795-801 *)
Definition event_step (e : event) (ip : interp * patcher) : pres (interp * patcher) :=
  match e with
  | SetUp => set_up ip
  | TearDown | Pause => inl (stop_patching ip)
  | Resume => start_patching ip
  | Import n v => inl (import_ n v ip)
  | Reload n => inl (reload n ip)
  | SetAttr o a v => let (i, p) := ip in inl (mki (upd (i_dicts i) o a v) (i_defaults i) (i_modules i) (i_meta i), p)
  end.
Fixpoint events (l : list event) (ip : interp * patcher) : pres (interp * patcher) :=
  match l with [] => inl ip | e :: l' => match event_step e ip with inl ip' => events l' ip' | inr x => inr x end end.
End Patcher.
