# Formal model of pyfakefs in Coq 8.16.1

## What is modelled, and how

`/repo` is read as text and never run.  The model is a shallow, executable
Gallina transcription, function by function, with Python exceptions as values.
Every definition cites the file and lines it models.

| model file | models |
|------|--------|
| `Str.v` | Python `str`/`bytes` operations used by the code (`split`, `join`, `startswith`, `rfind`, `partition`, `lower`, dict as ordered association list) |
| `PathModel.v` | lexical path functions of `FakeFilesystem` (normpath, absnormpath, splitpath, splitdrive, joinpaths, path components, ...) and the pathlib flavour `splitroot` |
| `FsModel.v` | the state of a `FakeFilesystem` (objects, directories, descriptors, mount points) and all lookup functions (exists, resolve_path, resolve, lresolve, stat, listdir, readlink, access, isdir, isfile, islink, samefile, obj.path ...) |
| `OpsModel.v` | all mutators (create_dir, create_file, symlink, link, makedir(s), mknod, remove, rmdir, removedirs, rename, chmod, utime, chown, truncate, xattr, umask, chdir, mounts, disk usage...) |
| `IoModel.v` | `open`, `FakeFileWrapper` (binary mode) over `io.BytesIO`, `os.open/read/write/close/pipe/fdopen/fstat/truncate...`, descriptor table |
| `SysModel.v` | histories: every modelled call as one `op`, `step`, `run`, `reachable` |
| `RealpathModel.v` | `FakePathModule.relpath`, `realpath`, `ismount`, `getsize`, and `size` of objects |
| `PathlibModel.v` | `Path.resolve` (POSIX flavour), `read_bytes`, `write_bytes`, `touch` of `fake_pathlib.py` |
| `AddRealModel.v` | `add_real_file`, `add_real_symlink`, `add_real_directory(lazy_read=False)`, `FakeFileFromRealFile`; the real filesystem is an argument |
| `LazyModel.v` | `add_real_directory(lazy_read=True)`, `FakeDirectoryFromRealDirectory`, lookups and listings that fill it |
| `LineModel.v` | `readline`, `readlines`, `readinto`, `__iter__`, `__next__` of binary file objects; `os.sendfile` |
| `DirFdModel.v` | `FakeOsModule._path_with_dir_fd` and the `dir_fd` arguments of the os functions |
| `PathlibTextModel.v` | `FakePath.read_text`, `write_text` |
| `WalkGenModel.v` | `walk` and `ScanDirIter` as iterators between whose steps anything may happen |
| `RmtreeModel.v` | `shutil.rmtree` of CPython (`_rmtree_safe_fd`) running on the model of the os module |
| `FsExtraModel.v` | os.path.getmtime/getatime/getctime, Path.samefile |
| `MkdirModel.v` | `Path.mkdir`, `Path.is_dir` of CPython on the fake accessor |
| `CopyModel.v` | `shutil.copyfileobj` of CPython on fake file objects |
| `WalkModel.v` | `fake_scandir.py` (scandir, DirEntry, walk) |
| `StubModel.v` | `mox3_stubout.py` |
| `PatcherModel.v` | `Patcher`/`DynamicPatcher` setUp, pause, resume, tearDown of `fake_filesystem_unittest.py` |

| specification file | vocabulary of the theorem statements |
|------|--------|
| `PathSpec.v` | POSIX path strings: canonical form, lexical meaning |
| `WinSpec.v` | Windows path strings: drives, joining, the parts of pathlib |
| `FsSpec.v` | trees, entries, link targets, what a path denotes, what "one entry more/less" means: raw state only |
| `WalkSpec.v`, `CaseSpec.v`, `UsageSpec.v` | walks; case folding; sums of file sizes, tidy calls |
| `RealSpec.v`, `PathlibSpec.v` | where following all links of a path leads |

Proof files (lemmas only): `PathProofs*` (paths); `ResProofs*`, `LookupProofs`,
`ResThm*`, `ExtProofs`, `LookEq`, `CwdThm` (lookups); `Wp` (rules of the
state-and-exception monad); `GraphInv`, `GraphOps*`, `GraphRename`, `GraphIo`,
`ParentInv`, `TreeThm` (the graph invariant of all histories); `OpsThm*` (what
each mutator does); `Frame`, `IoFrame`, `Gen`, `Limits`, `MountThm`,
`UsageThm`, `AttrThm` (relations kept by every call, from the primitive
updates); `FdThm`, `IoThm`, `IoApp`, `OpenThm`, `IoSess`, `CohThm*` (open files
and descriptors); `WalkThm`, `CaseThm`, `RelThm`, `RealThm`, `HistThm`, `Honest`, `PathlibThm`, `AddRealThm`, `LazyThm`, `ErrThm`, `WinProofs`.

`Prop*.v` contain the property theorems, the remaining definitions used in their
statements, `Print Assumptions` under each theorem and a non-vacuity `Example`:
`PropPath` C01-C08, `PropRes` C09-C11, `PropTree` C12-C16, `PropOps` C17-C26,
C32, C37, C51, C53, `PropAttr` C27-C31, C33, C34, C54, `PropUsage` C35, `PropReal` C55-C58, `PropHist` C59-C61, `PropPathlib` C62-C64, `PropErr` C65-C66, `PropWin` C67-C69, `PropOpen` C70, `PropRmdirs` C71, `PropFail` C72 and the rest of C53, `PropStat` C75, `PropText` C76, `PropMake` the rest of C17 and C32 (missing directories), `PropAddReal` C73, `PropAddReal2` C74, `PropLazy` C77, `PropLine` C78, `PropSend` C79, `PropDirFd` C80, `PropText2` C81, `PropWalkGen` C82, `PropRmtree`, `PropRmtree2` C83,
`PropIo2` C36, C44, C45, `PropFd` C38, C39, `PropIo` C40-C42, `PropIo3` C43,
`PropWalk` C46, C47, `PropStub` C48, `PropPatch` C49, `PropMount` C50,
`PropCase` C52.

A theorem with suffix `_partial` proves the property under side conditions that
are necessary or not yet removed; the theorems with suffix `_refuted` beside it
prove, by a concrete history, that the full English statement is false of the
code as modelled.  They are findings about pyfakefs, not gaps of the proof.

### Modelling decisions

* Strings are `list ascii`; paths are `str` only (no `bytes`, no `PathLike`), `.lower()` is ASCII lower-casing.
* Objects live in a heap `nat -> fobj`; Python object identity is index equality.  Nothing is freed.
* A method is `fs -> res A * fs`: the state *after an exception* is part of the result, so partial effects of failing calls are visible.
* Recursion that Python performs without a structural bound carries fuel; exhaustion is the distinct exception `RecErr`, and theorems prove it does not occur (or exclude it explicitly).
* Host is Linux (link depth limit 40, `os.O_*` values, buffer size 8192); the *simulated* OS (separators, drive letters, case sensitivity, Windows/macOS/Linux branches) is the configuration record `cfg`.
* Theorems about the tree are stated for Linux-like configurations (`linux_like`: not Windows, not macOS, case sensitive, no alternative separator); `reachable` states of this kind are those after *any* finite history of the calls of `SysModel.op`.  Theorems about attributes, descriptors and open files hold for every configuration where their statement says so; C52 treats case-insensitive ones; C01-C08 range over every POSIX-like configuration, C06 over every configuration.
* `/dev/null` is special in the code (an object outside the tree found by its name); theorems about paths exclude its name where the code treats it differently, and say so.
* Times are integers read from a clock in the state (no float rounding); the rounding in stat results is modelled separately (`StatModel`, C75).
* `os.walk`/`os.scandir` are generators; the model gives the complete list they yield while the filesystem is unchanged, with the in-place pruning of the directory list by the caller as a parameter.
* The configuration does not change during a history (`fs.os = ...` is set before).

### Not modelled

Text mode beyond C76 (readline and iteration, text seek/tell, stateful encodings, errors=); calls other than lookups and
listings on directories added with `lazy_read=True` (`LazyModel`, C77);
`bytes`/PathLike arguments; `side_effect` callbacks; Python's recursion limit;
threads; the module finding machinery of `Patcher` beyond the replacement of
attributes, default arguments and `sys.modules` entries; `fake_pathlib` except
its path parsing, `Path.resolve` (POSIX), `read_bytes`, `write_bytes` and `touch`; `fake_tempfile`; `pytest_plugin`; `fake_filesystem_shutil`
(except that its calls are sequences of modelled calls); `copy_to_fs`-style helpers.
Python 3.8 or newer is assumed where the code branches on it.

## Trusted base

* Coq's kernel (8.16.1) and the standard library.  No axioms are declared in
  this development, and `Print Assumptions` under every property theorem prints
  `Closed under the global context`.
* `coqchk`/`vcheck` lists, as axioms of loaded library files, the seven
  parameters of the sealed module in `Coq.ssr.ssrunder` (`Under_rel`,
  `Over_rel`, ...), which the standard library itself declares.  They are loaded
  with the library and used by no theorem (see `Print Assumptions`).
* The faithfulness of the transcription: the only tie between model and code is
  the reading recorded in the line citations.
* Only the Coq standard library is imported (`List`, `Ascii`, `String`, `ZArith`,
  `NArith`, `Arith`, `Bool`, `Lia`, `Permutation`, `Sorted`, `RelationClasses`, `Morphisms`, `FinFun`).

## Plan per property

| id | modelled | proof |
|----|----------|-------|
| C01-C05, C08 | PathModel for every POSIX-like configuration (any separator other than '.') | independent spec of canonical form and lexical walk (PathSpec); induction over component lists |
| C06, C07 | splitdrive for every configuration; splitroot | case analysis of the code |
| C09-C11 | lookup functions | fuel adequacy by length of the path; link budget; induction over components |
| C12-C15 | all mutators | invariant over every history of operations (graph invariant: entries, link counts, acyclic) |
| C16 | obj.path | parent chain lemma; refuted for directory names that look like drives |
| C17-C26, C32, C37, C51 | mutators | operation specifications with frame conditions on entries of every directory |
| C22, C24 | rename | C22 on success; C24 refuted (EACCES, EXDEV after removal), proved: what a failed rename leaves alone |
| C27-C31, C33, C54 | attribute operations | direct, with frame on all other objects; the frame of all other calls by `Gen` |
| C34, C35 | disk usage | invariants over histories by `Gen` and by sums over the heap (`UsageThm`); C35 refuted by over-write accounting, links, unlinked files; proved for tidy histories |
| C36 | sizes of files | invariant over histories; refuted by the size setter on empty files |
| C38, C39 | descriptor table | invariant over histories; sessions in which descriptors are used in the usual ways |
| C40-C45 | FakeFileWrapper over BytesIO | refinement to (bytes, cursor); refuted parts for partial flushes and interleaved handles |
| C46, C47 | fake_scandir | induction over the tree (depth bound from acyclicity), link budget when links are followed |
| C48 | mox3_stubout | history induction over association maps |
| C49 | Patcher | refinement to a reference interpreter without patcher; refuted for DynamicPatcher, reload, linecache |
| C50 | mount points | invariants over histories; longest prefix by fold; four refutations |
| C52 | directory_content / normalized names | simulation by the filesystem with all names folded |
| C53 | all lookups and listed mutators | state equality on the error result (`PropOps`, `PropFail`); refuted: a full disk leaves an entry, a failed link leaves the new name on the old file object |
| C55 | relpath (host posixpath.relpath included) | walk semantics of PathSpec; shortest by the common prefix of the two stacks; refuted for other separators |
| C56 | realpath / _joinrealpath | independent relation `real`; evaluator by nesting depth; recursion bounded by distinct links in progress; refuted for relative paths above the root, and `link/..` |
| C57 | ismount | keys of the mount dictionary are canonical (invariant over histories) |
| C58 | FakeDirectory.size | induction over the depth bound of the acyclic tree |
| C59 | the lookups, os.walk | C09's cases of exceptions; AttributeError is excluded by C61 |
| C60 | isdir/listdir, islink/readlink, exists/stat, isfile/open | both lookups are reduced to the position in the tree; the resolved path is stable |
| C61 | all calls | invariant over all calls, with what is known of objects not yet in a directory (Honest.v) |
| C62 | Path.resolve (POSIX flavour) | independent relation `realx` (C56's, with strictness); recursion bounded as in C56 |
| C63 | Path.read_bytes, write_bytes | reduced to open, write, close of a session (C40) |
| C64 | Path.touch | reduced to stat, utime (C33), open, close, chmod (C27) |
| C65 | failing calls raise OSError | all path calls of `step`; the classes of errors of every function, with the invariants of C59/C61 |
| C66 | no endless recursion | all of `step`; acyclic tree and finite parent chains (C13) bound every recursion; link chasing ends by its budget |
| C67-C69 | splitdrive, normpath, join, isabs, abspath, pathlib splitroot of Windows configurations | lexical; the rest after the drive is reduced to the POSIX theorems C01-C05; refuted for colons in names, other drives, network current directories |
| C70 | os.open for every flag word | `os_open`, `open_call`, `chmod`, descriptor table; direction by an invariant over histories that keep the descriptor; refuted: the mode of an existing file is reset, O_DIRECTORY is taken as O_TMPFILE, write-only files cannot be opened by non-owners |
| C71 | os.removedirs | `removedirs`, `removedirs_loop`, `rmdir`; induction on the path from its end; refuted: unlike Python's, it raises after removing the leaf when a directory above cannot be removed, in particular EBUSY for the root directory left empty |
| C72 | os.mknod | `mknod`, `add_object`; refuted: a bare relative name goes to the root directory instead of the current one, and the new file cannot be read (FakeLargeFileIoException) |
| C73 | add_real_file | `AddRealModel`; refuted: on a full disk the call raises but leaves the file; with a separator other than '/' the file is named by the whole path; a file truncated before it was read keeps its contents |
| C74 | add_real_directory, lazy_read=False | `AddRealModel.add_real_directory` over a real tree as data; the real tree is walked in the order of os.walk; an invariant (what is there so far, what is elsewhere) over the list of leaves, `AddRealDir.v`; partial: the target path has no links on it and does not begin with a name like `c:`; refuted: empty directories and the modes of directories are not copied; below `/c:` the files land in the current directory |
| C75 | Times and fields of stat results | `StatModel` (helpers.py FakeStatResult, stand-alone): floats as exact rationals with the rounding function `rnd`; `FloatThm` proves that it gives a nearest double and bounds the error; refuted: `st[8]` can be one second too large, float copies are inexact, Windows attributes of files and directories are wrong |
| C76 | Text files | `TextModel`: texts are lists of code points; newline translation and codecs (any stateless codec; UTF-8 and Latin-1 defined) in front of the binary wrapper of `IoModel`, with the line buffer; `TextThm` shows what one and many text writes do to buffer and file (also appending), `PropText` combines this with open and close as C40/C42 do |
| C77 | Lazily added real directories | `LazyModel`: the state is the filesystem with the directories not read yet; the lookup step and the listing load a directory on first use. `LazyThm` keeps the invariant `mapped` (every entry present is the real one, every directory not marked unread has all its entries), `PropLazy` derives lookups, listings and the frame |
| C78 | Line by line | `LineModel` on top of `IoModel` (a read call of any name); `LineThm` relates the BytesIO functions to the specification `next_line`/`lines` and shows what a read call of any kind does to a handle satisfying the C43 invariant |
| C79 | os.sendfile | `LineModel.os_sendfile`; `PropSend`: the two handles have disjoint footprints (`iow`), the copy is composed of the C41/C43 lemmas for tell, seek, read, write, flush; induction over repeated calls |
| C80 | dir_fd | `DirFdModel.path_with_dir_fd` in front of the calls of `SysModel`; with C16 (path of a directory object) and the join lemmas the path leads where the relative path leads from the directory; the effects then follow from C19-C22 |
| C81 | Path.write_text/read_text | `PathlibTextModel` on top of `TextModel`; the text session lemmas of C76 with one write, the effects on the rest of the tree as for C63 |
| C82 | walk/scandir as iterators | `WalkGenModel`: the stack of nested generators as a state; invariants over any interleaving of next() and other calls (`td_trace`, `bu_trace`), agreement with C46 if nothing changes; scandir over the dict iterator of CPython |
| C83 | shutil.rmtree | `RmtreeModel` on top of scandir, dir_fd, os.open, os.close; invariant of every intermediate state (`J`: reachable, descriptors consistent), relation `trimmed` composed over the loop and the recursion (`fd_run`), inode uniqueness for the link test; success by induction on the depth (`fd_live`), each call of os shown to succeed for root |
| C84 | getters | resolve with and without the read check leads to the same object; case analysis over the separator check of os.stat |
| C85 | Path.mkdir | recursion over the names of the path; relation `grown` (only new directories at names of the path), reflexive and transitive along the recursion, each step from the specification of makedir (C19) |
| C86 | copyfileobj | induction over the rounds: both handles keep their view of their file (C41), each round moves one part from the rest of the source to the end of the destination |
