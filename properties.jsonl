{"id": "C01", "title": "normpath is canonical and idempotent", "statement": "For a POSIX fake filesystem, fs.normpath(p) never contains an empty, '.' or redundant '..' component (a '..' occurs only as a leading run of a relative path), never ends with the separator unless it is the root, is absolute exactly when p is absolute, and normpath(normpath(p)) == normpath(p).", "quantifier": "every path string (any characters, any length, any mix of separators and dots)", "why_tests_cant": "The set of path strings is infinite; unit tests check about a dozen literals.", "anchors": ["pyfakefs/fake_filesystem.py: FakeFilesystem.normpath", "pyfakefs/fake_filesystem.py: FakeFilesystem.splitdrive"]}
{"id": "C02", "title": "normpath preserves the lexical meaning of a path", "statement": "normpath(p) names the same position as p: starting from any stack of directory names and applying the components of p one by one ('' and '.' stay, '..' pops and stays at the root, a name pushes), p and normpath(p) end on the same stack, and both are absolute or both relative.", "quantifier": "every POSIX path string and every starting position", "why_tests_cant": "Needs all strings and all start positions; an off-by-one in the handling of '..' shows only on particular mixtures.", "anchors": ["pyfakefs/fake_filesystem.py: FakeFilesystem.normpath"]}
{"id": "C03", "title": "absnormpath / os.path.abspath yield an absolute normalized path relative to the cwd", "statement": "absnormpath(p) is absolute and in normal form, is a fixed point of absnormpath and normpath, and denotes the position reached by walking p from the current directory (from the root when p is absolute).", "quantifier": "every path string without NUL and every absolute current directory", "why_tests_cant": "Infinite strings times all current directories.", "anchors": ["pyfakefs/fake_filesystem.py: FakeFilesystem.absnormpath", "pyfakefs/fake_filesystem.py: FakePathModule.abspath", "pyfakefs/fake_filesystem.py: FakeFilesystem._starts_with_root_path"]}
{"id": "C04", "title": "split and join are inverse on absolute-or-relative POSIX paths", "statement": "For (h, t) = os.path.split(p): t contains no separator; joining h and t with os.path.join gives a path that normalizes like p; and dirname/basename are the two halves.", "quantifier": "every POSIX path string", "why_tests_cant": "Infinite domain; edge cases are runs of separators anywhere in the string.", "anchors": ["pyfakefs/fake_filesystem.py: FakeFilesystem.splitpath", "pyfakefs/fake_filesystem.py: FakeFilesystem.joinpaths", "pyfakefs/fake_filesystem.py: FakePathModule.dirname", "pyfakefs/fake_filesystem.py: FakePathModule.basename"]}
{"id": "C05", "title": "join: the last absolute argument wins, join is associative", "statement": "os.path.join(p, q) == q when q is absolute; otherwise it is p, one separator unless p is empty or already ends with one, and q; joining the join of a prefix of the arguments with the rest equals joining all of them.", "quantifier": "every non-empty list of POSIX path strings", "why_tests_cant": "All argument lists of all lengths.", "anchors": ["pyfakefs/fake_filesystem.py: FakeFilesystem.joinpaths"]}
{"id": "C06", "title": "splitdrive is a lossless partition and drives are recognised only where they may be", "statement": "drive + rest == p for every path and every filesystem configuration; on POSIX the drive is always empty; on Windows, for a non UNC path, the drive is empty or the first two characters with ':' in second position; a UNC drive is '//server/share'.", "quantifier": "every path string and every filesystem configuration (OS, separator, alternative separator)", "why_tests_cant": "Infinite strings; UNC parsing has off-by-one prone index arithmetic.", "anchors": ["pyfakefs/fake_filesystem.py: FakeFilesystem.splitdrive"]}
{"id": "C07", "title": "pathlib flavour: splitroot is a lossless partition", "statement": "For the fake POSIX path flavour, drive + root + relative part reconstruct the path up to the collapsed leading separators, root is empty, '/' or '//' and the relative part does not start with a separator; joining/parsing keeps the parts in order.", "quantifier": "every path string", "why_tests_cant": "Infinite domain, special rule for exactly two leading slashes.", "anchors": ["pyfakefs/fake_pathlib.py: _FakeFlavour._splitroot_posix, _FakeFlavour.splitroot"]}
{"id": "C08", "title": "Path components and normpath agree", "statement": "For every clean list of names, splitting the absolute path assembled from them with _path_components semantics (the internal walk used by every lookup) gives back exactly the list, and every absolute normalized path is the assembly of exactly one list.", "quantifier": "every list of clean names / every absolute normalized path string", "why_tests_cant": "Infinite domain; lookups depend on it for every path.", "anchors": ["pyfakefs/fake_filesystem.py: FakeFilesystem._path_components", "pyfakefs/fake_filesystem.py: FakeFilesystem._components_to_path"]}
{"id": "C09", "title": "Path resolution always terminates; symlink loops end in ELOOP", "statement": "Every lookup (resolve_path, exists, stat, open...) of every path in every filesystem state returns a result or an error; it follows at most 41 links; a path whose resolution would cycle forever gives ELOOP (OSError) or 'does not exist', never a hang.", "quantifier": "every filesystem state, including arbitrary symlink graphs, and every path", "why_tests_cant": "Cycle detection over arbitrary graphs; tests use loops of length 1 and 2.", "anchors": ["pyfakefs/fake_filesystem.py: FakeFilesystem.resolve_path", "pyfakefs/fake_filesystem.py: FakeFilesystem._resolve_components", "pyfakefs/fake_filesystem.py: FakeFilesystem._follow_link"]}
{"id": "C10", "title": "A resolved path is free of symbolic links and stable", "statement": "When resolve_path(p) succeeds and names an existing object, the result is absolute, every proper prefix of it is a real directory, no component of it is a symbolic link, and resolving it again returns it unchanged.", "quantifier": "every POSIX filesystem state reachable by API calls and every path", "why_tests_cant": "Arbitrary nesting of links through directories.", "anchors": ["pyfakefs/fake_filesystem.py: FakeFilesystem.resolve_path", "pyfakefs/fake_filesystem.py: FakeFilesystem._resolve_components"]}
{"id": "C11", "title": "exists / isfile / isdir / islink / stat tell one consistent story", "statement": "In every state: isfile or isdir implies exists; not both isfile and isdir; stat succeeds implies exists; islink looks at the entry itself; an entry that lexists but does not exist is a symbolic link.", "quantifier": "every filesystem state and path", "why_tests_cant": "Three different traversal routines (exists, resolve, lresolve) must agree on all trees.", "anchors": ["pyfakefs/fake_filesystem.py: FakeFilesystem.exists", "pyfakefs/fake_filesystem.py: FakeFilesystem._is_of_type", "pyfakefs/fake_filesystem.py: FakeFilesystem.isfile", "pyfakefs/fake_filesystem.py: FakeFilesystem.isdir", "pyfakefs/fake_filesystem.py: FakeFilesystem.islink", "pyfakefs/fake_filesystem.py: FakeFilesystem.stat"]}
{"id": "C12", "title": "Directory listings never contain duplicates or unusable names", "statement": "After any history of API calls, the names os.listdir returns for a directory are pairwise distinct, none is empty, and none contains the path separator; each listed name can be looked up.", "quantifier": "every finite history of filesystem calls from a fresh filesystem", "why_tests_cant": "All interleavings of creations, renames, links and removals.", "anchors": ["pyfakefs/fake_filesystem.py: FakeDirectory.add_entry", "pyfakefs/fake_filesystem.py: FakeDirectory.remove_entry", "pyfakefs/fake_filesystem.py: FakeFilesystem.listdir", "pyfakefs/fake_filesystem.py: FakeFilesystem.rename"]}
{"id": "C13", "title": "st_nlink equals the number of names of a file", "statement": "After any history of calls, for every object reachable in the tree, a regular file's or symlink's st_nlink equals the number of directory entries that refer to it (over all directories), and a directory's st_nlink equals 2 plus its number of entries (1 plus for the root).", "quantifier": "every finite history of filesystem calls", "why_tests_cant": "Counts must stay right through link, rename-over, unlink, recursive removal in every order.", "anchors": ["pyfakefs/fake_filesystem.py: FakeDirectory.add_entry", "pyfakefs/fake_filesystem.py: FakeDirectory.remove_entry", "pyfakefs/fake_filesystem.py: FakeFilesystem.create_link"]}
{"id": "C14", "title": "The directory tree is always a tree", "statement": "After any history of calls each directory other than the root is contained in at most one directory under its own name, no directory is its own ancestor, and following parents from any directory of the tree ends at the root.", "quantifier": "every finite history of filesystem calls", "why_tests_cant": "A single rename into an own subtree through a symlink or different spelling would break every later walk.", "anchors": ["pyfakefs/fake_filesystem.py: FakeFilesystem.rename", "pyfakefs/fake_filesystem.py: FakeDirectory.has_parent_object", "pyfakefs/fake_filesystem.py: FakeDirectory.add_entry"]}
{"id": "C15", "title": "Inode numbers identify objects", "statement": "After any history of calls two different objects in the tree have different st_ino; two names have the same st_ino exactly when they are hard links of the same object; os.path.samefile is equality of inode (and device).", "quantifier": "every finite history of filesystem calls and every pair of objects", "why_tests_cant": "Quantifies over all pairs in all histories.", "anchors": ["pyfakefs/fake_filesystem.py: FakeDirectory.add_entry", "pyfakefs/fake_filesystem.py: FakePathModule.samefile", "pyfakefs/fake_filesystem.py: FakeFilesystem.create_link"]}
{"id": "C16", "title": "obj.path of a directory resolves to that object", "statement": "For every directory in the tree the path reported by its object resolves back to the same object.", "quantifier": "every finite history of filesystem calls and every directory", "why_tests_cant": "Names and parent pointers are updated separately from the entries in rename.", "anchors": ["pyfakefs/fake_filesystem.py: FakeFile.path", "pyfakefs/fake_filesystem.py: FakeFilesystem.resolve", "pyfakefs/fake_filesystem.py: FakeFilesystem.rename"]}
{"id": "C17", "title": "create_file then read: contents, and nothing else changes", "statement": "After create_file(p, contents=c) succeeds, reading p yields exactly c, st_size is len(c), and every path that named an object before still names the same object with the same contents; with create_missing_dirs (the default) the missing directories of p are made with mode 0o777 and nothing else is.", "quantifier": "every filesystem state, every path, every contents", "why_tests_cant": "Framing over all other paths.", "anchors": ["pyfakefs/fake_filesystem.py: FakeFilesystem.create_file", "pyfakefs/fake_filesystem.py: FakeFilesystem.create_file_internally", "pyfakefs/fake_filesystem.py: FakeFile.set_initial_contents"]}
{"id": "C18", "title": "Creating over an existing name fails with EEXIST and changes nothing", "statement": "create_file, mkdir, symlink and link on a path that already exists raise EEXIST and leave the filesystem state unchanged.", "quantifier": "every filesystem state and existing path", "why_tests_cant": "Atomicity of failure over all states.", "anchors": ["pyfakefs/fake_filesystem.py: FakeFilesystem.create_file_internally", "pyfakefs/fake_filesystem.py: FakeFilesystem.makedir", "pyfakefs/fake_filesystem.py: FakeFilesystem.create_symlink", "pyfakefs/fake_filesystem.py: FakeFilesystem.create_link"]}
{"id": "C19", "title": "mkdir creates exactly one empty directory", "statement": "If mkdir(p) succeeds, the parent gains exactly one entry with the base name, it is an empty directory with mode `mode & ~umask`, and no other directory changes its entries.", "quantifier": "every filesystem state, path, mode and umask", "why_tests_cant": "Framing over all directories.", "anchors": ["pyfakefs/fake_filesystem.py: FakeFilesystem.makedir"]}
{"id": "C20", "title": "remove unlinks exactly one name", "statement": "If os.remove(p) succeeds then exactly that one entry is gone from its directory, all other entries of all directories are as before, and data stays reachable through the other hard links with st_nlink one smaller; removing a directory fails and changes nothing.", "quantifier": "every filesystem state and path", "why_tests_cant": "Framing and hard link counts over all states.", "anchors": ["pyfakefs/fake_filesystem.py: FakeFilesystem.remove", "pyfakefs/fake_filesystem.py: FakeFilesystem.remove_object", "pyfakefs/fake_filesystem.py: FakeDirectory.remove_entry"]}
{"id": "C21", "title": "rmdir removes only empty directories", "statement": "rmdir(p) succeeds only on an empty real directory (not a symlink to one); on a non-empty one it raises ENOTEMPTY and changes nothing; on success exactly this entry disappears.", "quantifier": "every filesystem state and path", "why_tests_cant": "All states.", "anchors": ["pyfakefs/fake_filesystem.py: FakeFilesystem.rmdir"]}
{"id": "C22", "title": "rename moves exactly one entry", "statement": "If os.rename(a, b) succeeds and a, b name different objects, then the entry a is gone, b names the object a named before (same inode, same contents), a previously existing file at b is unlinked, and every other entry of every directory is unchanged.", "quantifier": "every filesystem state and all pairs of paths", "why_tests_cant": "All pairs; source and target directories may coincide or be nested.", "anchors": ["pyfakefs/fake_filesystem.py: FakeFilesystem.rename"]}
{"id": "C23", "title": "rename into the own subtree is refused", "statement": "Renaming a directory to a location inside itself raises an error (EINVAL) and the tree is unchanged, however the target is spelled.", "quantifier": "every filesystem state, every directory and every target below it, at any depth", "why_tests_cant": "Depth is unbounded.", "anchors": ["pyfakefs/fake_filesystem.py: FakeFilesystem.rename", "pyfakefs/fake_filesystem.py: FakeDirectory.has_parent_object"]}
{"id": "C24", "title": "A failed rename loses nothing", "statement": "If os.rename raises, every file that existed before still exists with the same contents.", "quantifier": "every filesystem state, user and pair of paths", "why_tests_cant": "Failure points in the middle of the operation.", "anchors": ["pyfakefs/fake_filesystem.py: FakeFilesystem.rename"]}
{"id": "C25", "title": "Hard links share one object", "statement": "After os.link(a, b) both names denote the same object: the same st_ino, same st_nlink (one more than before), and any later content change or chmod through one name is seen through the other; removing one leaves the other.", "quantifier": "every filesystem state and pair of paths", "why_tests_cant": "All later histories.", "anchors": ["pyfakefs/fake_filesystem.py: FakeFilesystem.create_link", "pyfakefs/fake_filesystem.py: FakeFilesystem.link"]}
{"id": "C26", "title": "symlink / readlink round trip", "statement": "After os.symlink(t, p) succeeds, os.readlink(p) == t, islink(p) holds, lstat sees the link and the target need not exist; no other entry changes.", "quantifier": "every filesystem state, target string and link path", "why_tests_cant": "All target strings and states.", "anchors": ["pyfakefs/fake_filesystem.py: FakeFilesystem.create_symlink", "pyfakefs/fake_filesystem.py: FakeFilesystem.readlink"]}
{"id": "C27", "title": "chmod changes exactly the permission bits of one object", "statement": "os.chmod(p, m) sets the low 12 (permission) bits of the object p resolves to to those of m, keeps its file type bits and leaves all other objects alone.", "quantifier": "every state, path and mode integer", "why_tests_cant": "All integers as mode.", "anchors": ["pyfakefs/fake_filesystem.py: FakeFilesystem.chmod"]}
{"id": "C28", "title": "umask round trip and effect", "statement": "os.umask(m) returns the previous mask and the next call returns m (masked); a created file or directory has exactly mode & ~umask permission bits.", "quantifier": "every integer mask, mode and state", "why_tests_cant": "All bit patterns.", "anchors": ["pyfakefs/fake_filesystem.py: FakeOsModule.umask", "pyfakefs/fake_filesystem.py: FakeFilesystem.makedir", "pyfakefs/fake_filesystem.py: FakeFilesystem.create_file_internally"]}
{"id": "C29", "title": "access agrees with the permission bits", "statement": "os.access(p, mode) for a non-root user is true exactly when the object exists and the owner/group/other bits selected for the user grant every requested bit; for F_OK it is existence.", "quantifier": "every state, path, mode, uid and gid", "why_tests_cant": "All bit patterns and owners.", "anchors": ["pyfakefs/fake_filesystem.py: FakeOsModule.access", "pyfakefs/fake_filesystem.py: FakeFile.has_permission"]}
{"id": "C30", "title": "chdir / getcwd", "statement": "os.chdir(p) succeeds only if p resolves to a directory the user may search, afterwards getcwd() is the resolved path of p, and on failure the cwd is unchanged; relative lookups are lookups of cwd joined with the path.", "quantifier": "every state and path", "why_tests_cant": "All states.", "anchors": ["pyfakefs/fake_filesystem.py: FakeOsModule.chdir", "pyfakefs/fake_filesystem.py: FakeOsModule.getcwd"]}
{"id": "C31", "title": "Extended attributes behave as a map per object", "statement": "setxattr/getxattr/listxattr/removexattr on an object implement a finite map (flags XATTR_CREATE / XATTR_REPLACE refuse existing / missing keys with EEXIST / ENODATA and change nothing) and never affect another object.", "quantifier": "every sequence of xattr calls, keys and values", "why_tests_cant": "All sequences.", "anchors": ["pyfakefs/fake_filesystem.py: FakeOsModule.setxattr", "pyfakefs/fake_filesystem.py: FakeOsModule.getxattr", "pyfakefs/fake_filesystem.py: FakeOsModule.listxattr", "pyfakefs/fake_filesystem.py: FakeOsModule.removexattr"]}
{"id": "C32", "title": "makedirs creates the missing ancestors, all or nothing", "statement": "os.makedirs(p) succeeds => every prefix of p is a directory and nothing else changed; with exist_ok=False it raises EEXIST when p exists; repeated with exist_ok=True it changes nothing. fs.create_dir does the same with exactly the permission bits given.", "quantifier": "every state and path of every depth", "why_tests_cant": "Unbounded depth.", "anchors": ["pyfakefs/fake_filesystem.py: FakeFilesystem.makedirs", "pyfakefs/fake_filesystem.py: FakeFilesystem.create_dir", "pyfakefs/fake_filesystem.py: FakeFilesystem.create_dir"]}
{"id": "C33", "title": "utime sets the times of one object", "statement": "os.utime(p, times|ns) sets exactly atime and mtime of the object p refers to (link or target), rejects both arguments together and wrong types with the documented exception, and touches nothing else.", "quantifier": "every state, path and times", "why_tests_cant": "All values.", "anchors": ["pyfakefs/fake_filesystem.py: FakeFilesystem.utime"]}
{"id": "C34", "title": "Disk usage never exceeds the disk size", "statement": "After any history, used <= total for every mount point with a size limit; an operation that would exceed the limit raises ENOSPC and leaves the usage unchanged.", "quantifier": "every finite history", "why_tests_cant": "Accumulates over histories.", "anchors": ["pyfakefs/fake_filesystem.py: FakeFilesystem.change_disk_usage", "pyfakefs/fake_filesystem.py: FakeFilesystem.set_disk_usage", "pyfakefs/fake_filesystem.py: FakeFile.set_contents"]}
{"id": "C35", "title": "Disk usage is the sum of file sizes", "statement": "After any history the used space of a mount point equals the sum of st_size over the distinct files stored under it; deleting everything brings it back to zero.", "quantifier": "every finite history", "why_tests_cant": "Accumulates over histories of overwrites, links, renames, removals.", "anchors": ["pyfakefs/fake_filesystem.py: FakeFilesystem.change_disk_usage", "pyfakefs/fake_filesystem.py: FakeFile._set_initial_contents", "pyfakefs/fake_filesystem.py: FakeDirectory.add_entry", "pyfakefs/fake_filesystem.py: FakeDirectory.remove_entry"]}
{"id": "C36", "title": "st_size is the length of the contents", "statement": "After any history st_size of a regular file with in-memory contents equals the number of bytes read from it; truncation to n makes both n.", "quantifier": "every finite history and every file", "why_tests_cant": "Sizes are tracked separately from contents.", "anchors": ["pyfakefs/fake_filesystem.py: FakeFile.size", "pyfakefs/fake_filesystem.py: FakeFile._set_initial_contents", "pyfakefs/fake_filesystem.py: FakeOsModule.truncate"]}
{"id": "C37", "title": "A failed create for lack of space leaves no file", "statement": "create_file with contents larger than the free space raises ENOSPC, the file does not exist afterwards and the usage is unchanged.", "quantifier": "every state with a size limit, every contents", "why_tests_cant": "All sizes relative to all limits.", "anchors": ["pyfakefs/fake_filesystem.py: FakeFilesystem.create_file_internally"]}
{"id": "C38", "title": "File descriptors: lowest free number, never shared", "statement": "A newly opened file gets the smallest descriptor not in use; no two live handles share a descriptor; after close the number is reusable exactly once.", "quantifier": "every sequence of open/close/dup operations", "why_tests_cant": "All interleavings of opens and closes.", "anchors": ["pyfakefs/fake_filesystem.py: FakeFilesystem._add_open_file", "pyfakefs/fake_filesystem.py: FakeFilesystem._close_open_file"]}
{"id": "C39", "title": "Operations on a closed or never opened descriptor give EBADF and change nothing", "statement": "os.read/os.write/os.fstat/os.close/os.ftruncate with an integer that is not an open descriptor raise OSError(EBADF) and leave the state unchanged; closing a handle twice is harmless and does not close somebody else's descriptor.", "quantifier": "every state and integer", "why_tests_cant": "All integers, including negative ones, after all histories.", "anchors": ["pyfakefs/fake_filesystem.py: FakeFilesystem.get_open_file", "pyfakefs/fake_filesystem.py: FakeFileWrapper.close", "pyfakefs/fake_filesystem.py: FakeFilesystem.has_open_file"]}
{"id": "C40", "title": "Data written is data read back, for any chunking and buffering", "statement": "Opening a file for writing, writing any chunks with any buffer size, and closing leaves the file containing exactly the concatenation of the chunks; reading it back in any chunk sizes returns this string.", "quantifier": "every list of chunks, every buffer size, every split into reads", "why_tests_cant": "All chunk sizes relative to the buffer limit; flush boundaries.", "anchors": ["pyfakefs/fake_filesystem.py: FakeFileWrapper.write_wrapper", "pyfakefs/fake_filesystem.py: FakeFileWrapper.flush", "pyfakefs/fake_filesystem.py: FakeFileWrapper.close", "pyfakefs/fake_filesystem.py: FakeFileWrapper._read_wrappers"]}
{"id": "C41", "title": "A random access handle behaves as a byte array with a cursor", "statement": "Any sequence of seek/read/write/tell/truncate/flush through one r+b or w+b handle returns what the same sequence returns on a plain (bytes, position) pair, and after close the file holds those bytes.", "quantifier": "every operation sequence and buffer size", "why_tests_cant": "All interleavings of seeks, reads and writes relative to the buffer limit.", "anchors": ["pyfakefs/fake_filesystem.py: FakeFileWrapper.write_wrapper", "pyfakefs/fake_filesystem.py: FakeFileWrapper.seek", "pyfakefs/fake_filesystem.py: FakeFileWrapper.tell", "pyfakefs/fake_filesystem.py: FakeFileWrapper.truncate"]}
{"id": "C42", "title": "Append handles never overwrite", "statement": "A handle opened with mode 'a' only ever extends the file: the contents before any sequence of writes and seeks is a prefix of the contents after, and what was added is the concatenation of the writes.", "quantifier": "every sequence of writes and seeks on an append handle, every existing contents", "why_tests_cant": "All sequences.", "anchors": ["pyfakefs/fake_filesystem.py: FakeFileWrapper.flush", "pyfakefs/fake_filesystem.py: FakeFileWrapper.write_wrapper"]}
{"id": "C43", "title": "Two unbuffered descriptors on one file are coherent", "statement": "After os.write/flush on one handle, any other handle reading that region sees the data, whatever the order of handles and operations.", "quantifier": "every sequence of operations on any number of handles of one file", "why_tests_cant": "All interleavings.", "anchors": ["pyfakefs/fake_filesystem.py: FakeFileWrapper._sync_io", "pyfakefs/fake_filesystem.py: FakeFileWrapper._flush_related_files", "pyfakefs/fake_filesystem.py: FakeOsModule.write", "pyfakefs/fake_filesystem.py: FakeOsModule.read"]}
{"id": "C44", "title": "open() mode table", "statement": "open(p, mode) succeeds/fails as documented: 'r' requires existence; 'x' requires absence; 'w' truncates; 'a' keeps; reading from a write-only and writing to a read-only handle raises and changes nothing.", "quantifier": "every state, path and mode string", "why_tests_cant": "All combinations of mode, existence, permission.", "anchors": ["pyfakefs/fake_filesystem.py: FakeFileOpen.call", "pyfakefs/fake_filesystem.py: FakeFileOpen._init_file_object", "pyfakefs/fake_filesystem.py: FakeFileOpen._handle_file_mode", "pyfakefs/fake_filesystem.py: _OPEN_MODE_MAP"]}
{"id": "C45", "title": "truncate(n) pads with zeros or cuts", "statement": "os.truncate / file.truncate(n) makes the contents the first n bytes, padded with NUL bytes when longer; st_size is n.", "quantifier": "every contents and n", "why_tests_cant": "All lengths.", "anchors": ["pyfakefs/fake_filesystem.py: FakeOsModule.truncate", "pyfakefs/fake_filesystem.py: FakeOsModule.ftruncate", "pyfakefs/fake_filesystem.py: FakeFileWrapper.truncate", "pyfakefs/fake_filesystem.py: FakeFile.size"]}
{"id": "C46", "title": "os.walk visits every directory exactly once", "statement": "Without following links, os.walk(top) yields each directory below top (in the tree) exactly once, every file name exactly once under its directory, top-down before and bottom-up after its subdirectories, and terminates.", "quantifier": "every filesystem tree", "why_tests_cant": "Unbounded trees.", "anchors": ["pyfakefs/fake_scandir.py: walk, _classify_directory_contents"]}
{"id": "C47", "title": "scandir agrees with listdir and stat", "statement": "os.scandir(p) yields exactly one DirEntry per name of listdir(p) whose is_dir/is_file/is_symlink agree with os.path on the joined path.", "quantifier": "every state and directory", "why_tests_cant": "All trees.", "anchors": ["pyfakefs/fake_scandir.py: ScanDirIter, DirEntry"]}
{"id": "C48", "title": "Stubs are restored exactly", "statement": "After StubOutForTesting.smart_set/set calls in any order (with repeated attributes) and smart_unset_all/unset_all, every attribute of every object has its original value, and a second unset is a no-op.", "quantifier": "every sequence of set calls on any objects and attributes", "why_tests_cant": "Repeated stubbing of the same attribute in arbitrary order.", "anchors": ["pyfakefs/mox3_stubout.py: StubOutForTesting"]}
{"id": "C49", "title": "Patcher start/stop/pause/resume leave the interpreter as found", "statement": "After any sequence of setUp/pause/resume/tearDown ending in tearDown, module attributes and sys.modules entries the Patcher replaced have their original values; while paused the originals are visible.", "quantifier": "every sequence of pause/resume and every set of patched modules", "why_tests_cant": "All sequences.", "anchors": ["pyfakefs/fake_filesystem_unittest.py: Patcher.start_patching, Patcher.stop_patching, Patcher.pause, Patcher.resume, DynamicPatcher"]}
{"id": "C50", "title": "Mount points: longest prefix, unique device numbers", "statement": "A path belongs to the mount point that is its longest component-wise prefix; every mount point has its own st_dev; objects created under it carry that st_dev.", "quantifier": "every set of mount points and every path", "why_tests_cant": "All nested mount points.", "anchors": ["pyfakefs/fake_filesystem.py: FakeFilesystem.add_mount_point", "pyfakefs/fake_filesystem.py: FakeFilesystem._mount_point_for_path"]}
{"id": "C51", "title": "removing a tree removes exactly this tree", "statement": "remove_object / shutil.rmtree-style removal of a directory removes exactly its entry; hard links from outside to files inside stay readable and lose one st_nlink per removed name.", "quantifier": "every tree", "why_tests_cant": "Unbounded trees with links crossing the border.", "anchors": ["pyfakefs/fake_filesystem.py: FakeFilesystem.remove_object", "pyfakefs/fake_filesystem.py: FakeDirectory.remove_entry"]}
{"id": "C52", "title": "Case-insensitive lookup finds an entry iff some spelling matches", "statement": "On a case-insensitive filesystem lookup of a name succeeds iff a name equal up to ASCII case is in the directory, an exact match wins, and exists/resolve agree on it; on a case-sensitive one lookup is exact.", "quantifier": "every directory and name", "why_tests_cant": "All spellings.", "anchors": ["pyfakefs/fake_filesystem.py: FakeFilesystem._directory_content", "pyfakefs/fake_filesystem.py: FakeFilesystem._original_path"]}
{"id": "C53", "title": "Failed calls do not change the filesystem", "statement": "A call of remove, rmdir, mkdir, symlink, mknod, listdir, chdir, readlink or stat that raises leaves every directory, file content, mode and descriptor as before; so does a failing chmod, lchmod, utime, chown, setxattr, removexattr, truncate or ftruncate, and a failing link (except for the name attribute of the file object that was to be linked), and a failing open of an existing file on an unlimited disk.", "quantifier": "every state and argument", "why_tests_cant": "All failure points.", "anchors": ["pyfakefs/fake_filesystem.py: FakeFilesystem.remove", "pyfakefs/fake_filesystem.py: FakeFilesystem.rmdir", "pyfakefs/fake_filesystem.py: FakeFilesystem.makedir", "pyfakefs/fake_filesystem.py: FakeFilesystem.create_symlink", "pyfakefs/fake_filesystem.py: FakeOsModule.mknod", "pyfakefs/fake_filesystem.py: FakeFilesystem.create_link", "pyfakefs/fake_filesystem.py: FakeFilesystem.chmod"]}
{"id": "C54", "title": "chown changes exactly the owner of one object", "statement": "os.chown(p, uid, gid) sets the user and group id of the object p refers to (a value of -1 leaves that id alone) and changes nothing else; a failed call changes nothing; no other call changes the owner of an object that already exists.", "quantifier": "every state, path, pair of ids and every history of other calls", "why_tests_cant": "Ranges over all states and all histories of other calls.", "anchors": ["pyfakefs/fake_filesystem.py: FakeOsModule.chown"]}
{"id": "C55", "title": "relpath leads from start to path, by the shortest way", "statement": "os.path.relpath(path, start) is a canonical relative path; joined to start it denotes path again (both taken from the current directory), and no relative path with fewer components does.", "quantifier": "every path, start and current directory", "why_tests_cant": "Ranges over all pairs of path strings, with any number of '..', '.' and repeated separators.", "anchors": ["pyfakefs/fake_filesystem.py: FakePathModule.relpath"]}
{"id": "C56", "title": "realpath follows all links and ends", "statement": "os.path.realpath(path) returns a canonical absolute path for every path, link loops included; if following the links ends, the result is the path arrived at, has no symbolic link on it, is a fixed point of realpath, and refers to the same object as path.", "quantifier": "every filesystem state, with any nesting of links, and every path", "why_tests_cant": "Ranges over all link graphs, with loops of any length and chains of any depth.", "anchors": ["pyfakefs/fake_filesystem.py: FakePathModule.realpath", "pyfakefs/fake_filesystem.py: FakePathModule._joinrealpath"]}
{"id": "C57", "title": "ismount is true exactly for mount points", "statement": "os.path.ismount(path) is true iff path, however written, denotes the directory of a mount point.", "quantifier": "every history of calls and every path string", "why_tests_cant": "Ranges over all histories with mount points and all spellings of a path.", "anchors": ["pyfakefs/fake_filesystem.py: FakePathModule.ismount"]}
{"id": "C58", "title": "The size of a directory is the sum of the files below it", "statement": "fs.get_object(path).size is the size of the file, or for a directory the sum of the sizes of all files and links at any depth below it, one summand per name.", "quantifier": "every reachable tree and every path", "why_tests_cant": "Ranges over trees of any depth and width.", "anchors": ["pyfakefs/fake_filesystem.py: FakeDirectory.size", "pyfakefs/fake_filesystem.py: FakeFilesystem.get_object"]}
{"id": "C59", "title": "Lookups raise only OSError", "statement": "os.stat, os.lstat, os.listdir, os.readlink, fs.resolve_path, fs.resolve and fs.get_object of any string either answer or raise OSError; os.path.exists, lexists, isdir, isfile and islink never raise; os.walk never raises (errors go to onerror).", "quantifier": "every string, after every history of calls that give new files and directories no foreign type bits and set no size limit", "why_tests_cant": "Ranges over all histories and all path strings, including links in circles and unreadable directories.", "anchors": ["pyfakefs/fake_filesystem.py: FakeFilesystem.stat", "pyfakefs/fake_filesystem.py: FakeFilesystem.listdir", "pyfakefs/fake_filesystem.py: FakeFilesystem.readlink", "pyfakefs/fake_filesystem.py: FakeFilesystem.exists", "pyfakefs/fake_scandir.py: walk"]}
{"id": "C60", "title": "The question functions tell which calls work", "statement": "If isdir(p) then listdir(p) works, and if p exists and listdir(p) works then isdir(p); islink(p) exactly if readlink(p) works (p without a trailing separator); for root, exists(p) exactly if stat(p) works, and if isfile(p) then open(p, 'rb') works.", "quantifier": "every string, after every such history", "why_tests_cant": "Relates two implementations of path lookup over all states and paths.", "anchors": ["pyfakefs/fake_filesystem.py: FakeFilesystem._is_of_type", "pyfakefs/fake_filesystem.py: FakeFilesystem.listdir", "pyfakefs/fake_filesystem.py: FakeFilesystem.readlink", "pyfakefs/fake_filesystem.py: FakeFilesystem.exists", "pyfakefs/fake_filesystem.py: FakeFileOpen.call"]}
{"id": "C61", "title": "Mode bits tell what an object is", "statement": "The mode of an object has the type of a directory exactly if the object is a directory that can have entries, whatever is done to it (chmod, rename, open, ...); every entry whose mode says symbolic link has a target text.", "quantifier": "every object, after every history of calls that give new files and directories no foreign type bits (for links: and set no size limit)", "why_tests_cant": "Is an invariant of all histories.", "anchors": ["pyfakefs/fake_filesystem.py: FakeFilesystem.chmod", "pyfakefs/fake_filesystem.py: FakeFilesystem.create_symlink", "pyfakefs/fake_filesystem.py: FakeFilesystem.create_file_internally", "pyfakefs/fake_filesystem.py: FakeDirectory"]}
{"id": "C62", "title": "Path.resolve follows every link", "statement": "Path(p).resolve(strict) of an absolute or relative p returns the absolute path arrived at by following every symbolic link ('..' is the parent of the directory arrived at); no link is on it, and with strict it exists. It raises RuntimeError or (strict only) OSError exactly if following does not end or (strict) meets something missing; strict and plain resolving never answer differently, and for absolute paths the answer is os.path.realpath's.", "quantifier": "every path string, every tree reachable by a history of calls, with readable directories", "why_tests_cant": "Ranges over all link graphs, including nested and circular ones.", "anchors": ["pyfakefs/fake_pathlib.py: _FakePosixFlavour._resolve_posix", "pyfakefs/fake_pathlib.py: FakePath.resolve", "pyfakefs/fake_filesystem.py: FakePathModule.realpath"]}
{"id": "C63", "title": "Path.write_bytes then read_bytes gives the data back", "statement": "Path(p).write_bytes(data) that succeeds returns len(data) and leaves exactly data in the file p leads to (a new file if there was none), changing no other file; read_bytes of p then returns data. With room on the disk it fails only if open(p, 'wb') fails.", "quantifier": "every path, data and history of calls (with other files open)", "why_tests_cant": "Ranges over all histories, contents and link structures.", "anchors": ["pyfakefs/fake_pathlib.py: FakePath.read_bytes", "pyfakefs/fake_pathlib.py: FakePath.write_bytes", "pyfakefs/fake_filesystem.py: FakeFileWrapper"]}
{"id": "C64", "title": "Path.touch", "statement": "touch of an existing path raises FileExistsError and changes nothing if exist_ok is false; otherwise it sets the access and modification times to now and changes nothing else. touch of a missing path, if it succeeds, makes an empty regular file there with the permission bits of mode, owned by the user, and changes nothing but its directory.", "quantifier": "every path, mode and history of calls", "why_tests_cant": "Is a statement about all states and about everything that is not changed.", "anchors": ["pyfakefs/fake_pathlib.py: FakePath.touch", "pyfakefs/fake_filesystem.py: FakeFilesystem.utime", "pyfakefs/fake_filesystem.py: FakeFilesystem.chmod"]}
{"id": "C65", "title": "Failing calls raise OSError", "statement": "A call that names files by path (create_*, mkdir, makedirs, mknod, symlink, link, rename, remove, rmdir, removedirs, chmod, chown, utime, chdir, truncate, xattr calls, open, os.open, add_mount_point, set_contents), given arguments of the documented form, either succeeds or raises OSError - never KeyError, AttributeError, TypeError or another internal error.", "quantifier": "every history of calls and every call, on every path", "why_tests_cant": "Ranges over all histories, link structures and paths; the failing cases are rare combinations of them.", "anchors": ["pyfakefs/fake_filesystem.py: FakeFilesystem.rename", "pyfakefs/fake_filesystem.py: FakeFilesystem.makedirs", "pyfakefs/fake_filesystem.py: FakeFilesystem.remove_object", "pyfakefs/fake_filesystem.py: FakeFilesystem.create_file_internally", "pyfakefs/fake_filesystem.py: FakeOsModule.truncate"]}
{"id": "C66", "title": "No call recurses without end", "statement": "No call runs into endless recursion (RecursionError): not over link loops, not over the chain of parent directories, not over removed directories or open files of removed directories.", "quantifier": "every history of calls of any kind and every call", "why_tests_cant": "Termination for all states: link loops and parent chains can be arbitrarily long and come from any history.", "anchors": ["pyfakefs/fake_filesystem.py: FakeFilesystem._follow_link", "pyfakefs/fake_filesystem.py: FakeDirectory.has_parent_object", "pyfakefs/fake_filesystem.py: FakeFile.path", "pyfakefs/fake_filesystem.py: FakeOsModule.removedirs", "pyfakefs/fake_filesystem.py: FakeFileWrapper.close"]}
{"id": "C67", "title": "Windows drives and normpath", "statement": "On a Windows filesystem every path has exactly one drive (x:, \\\\server\\share or none), which splitdrive returns; both separators mean the same; normpath keeps the drive and the place the rest of the path names, brings the rest into canonical form with one separator, and normalizing twice changes nothing.", "quantifier": "every path string and every Windows configuration", "why_tests_cant": "Ranges over all strings: any mixture of separators, dots, colons and drives.", "anchors": ["pyfakefs/fake_filesystem.py: FakeFilesystem.splitdrive", "pyfakefs/fake_filesystem.py: FakeFilesystem.normpath", "pyfakefs/fake_filesystem.py: FakeFilesystem.normcase"]}
{"id": "C68", "title": "Windows join, isabs and abspath", "statement": "On a Windows filesystem joining any number of paths follows the rules of drives: an absolute path replaces what is before it except for the drive if it has none, a path on another drive replaces everything, others are appended; abspath of every path is absolute, canonical, on the drive of the path or else of the current directory, and names the same place.", "quantifier": "all lists of path strings and all current directories", "why_tests_cant": "Ranges over all sequences of paths with and without drives, roots and separators of both kinds.", "anchors": ["pyfakefs/fake_filesystem.py: FakeFilesystem.joinpaths", "pyfakefs/fake_filesystem.py: FakeFilesystem._join_paths_with_drive_support", "pyfakefs/fake_filesystem.py: FakePathModule.isabs", "pyfakefs/fake_filesystem.py: FakePathModule.abspath"]}
{"id": "C69", "title": "pathlib parts of Windows paths", "statement": "On a Windows filesystem pathlib takes every path apart into drive (letter and colon, \\\\server\\share, each with an extended prefix if there is one), root (one separator if the rest starts with any, always with a network drive) and rest; the drive is that of os.path.splitdrive unless that is not a letter; the parts put together give the same parts again (unless the drive is a server without share).", "quantifier": "every path string", "why_tests_cant": "Ranges over all strings.", "anchors": ["pyfakefs/fake_pathlib.py: _FakeFlavour._splitroot_with_drive", "pyfakefs/fake_pathlib.py: _FakeFlavour._split_extended_path", "pyfakefs/fake_pathlib.py: _FakeFlavour.splitroot"]}
{"id": "C70", "title": "os.open follows its flags", "statement": "A successful os.open of an existing file empties it exactly when O_TRUNC comes with O_WRONLY or O_RDWR, needs O_EXCL absent, and changes no other object; of a missing file it needs O_CREAT and adds exactly one empty file with the permission bits asked for. O_CREAT with O_EXCL on an existing file, a missing file without O_CREAT, O_EXCL without O_CREAT and writing to or creating a directory fail and change nothing (EEXIST, EISDIR). Through the descriptor, for as long as it is open, os.write without a write flag and os.read with O_WRONLY fail with EBADF and change nothing.", "quantifier": "every flag word, path and mode, every reachable state with descriptors, and every later call sequence that keeps the descriptor open", "why_tests_cant": "Ranges over all flag combinations, all states and all histories between opening and using the descriptor.", "anchors": ["pyfakefs/fake_filesystem.py: FakeOsModule.open", "pyfakefs/fake_filesystem.py: FakeFileOpen.call", "pyfakefs/fake_filesystem.py: FakeOsModule.read", "pyfakefs/fake_filesystem.py: FakeOsModule.write"]}
{"id": "C71", "title": "removedirs takes away exactly the empty directories", "statement": "os.removedirs either fails and changes nothing, or removes the directory the path stands for, which was empty, and then, going up the path, each directory that is empty when its turn comes, stopping at the first that is not empty or that the path calls by a symbolic link (the link stays); if removing a directory on the way up fails as os.rmdir would, the call fails with that error. No file is lost and no other entry changes.", "quantifier": "every path and every filesystem state reachable by calls that give files and directories no foreign type bits", "why_tests_cant": "Ranges over all trees, links, permissions and depths.", "anchors": ["pyfakefs/fake_filesystem.py: FakeOsModule.removedirs", "pyfakefs/fake_filesystem.py: FakeFilesystem.rmdir", "pyfakefs/fake_filesystem.py: FakeFilesystem.remove_object"]}
{"id": "C72", "title": "os.mknod makes exactly one empty file", "statement": "os.mknod of an absolute path either raises and changes nothing, or the path did not exist, no device number was given, the mode names a regular file or the user is root, and the directory the path leads to gets exactly one new entry of the last name: a file of size 0 with one link whose mode is the given mode without the umask bits. Nothing else changes.", "quantifier": "every path, mode, device number and every reachable filesystem state", "why_tests_cant": "Ranges over all trees, umasks, modes and paths.", "anchors": ["pyfakefs/fake_filesystem.py: FakeOsModule.mknod", "pyfakefs/fake_filesystem.py: FakeFilesystem.add_object"]}
{"id": "C73", "title": "add_real_file maps exactly one real file", "statement": "fs.add_real_file(source, read_only, target_path) that succeeds adds one file at the target path (making missing directories with mode 0o777) and changes nothing else; its bytes, size, owner, group and times are those of the real file, its permission bits too, without the write and execute bits when read_only; the size is counted as used. If it fails, at most missing directories were made.", "quantifier": "every real file, target path and reachable filesystem state", "why_tests_cant": "Ranges over all trees, real files and paths.", "anchors": ["pyfakefs/fake_filesystem.py: FakeFilesystem.add_real_file", "pyfakefs/fake_filesystem.py: FakeFileFromRealFile", "pyfakefs/helpers.py: FakeStatResult.set_from_stat_result"]}
{"id": "C74", "title": "add_real_directory copies a whole tree", "statement": "fs.add_real_directory(source, read_only, lazy_read=False, target_path) that succeeds makes the target directory and puts into it, at the same relative paths, every file and every symbolic link of the real tree, with the bytes, size, owner, times and permission bits (without the write and execute bits when read_only) of the real file or the text of the real link; apart from the directories of the real tree nothing else appears below the target, and outside of it nothing changes.", "quantifier": "every real directory tree (any depth and width), target path and reachable filesystem state", "why_tests_cant": "Ranges over all real trees, fake trees and target paths.", "anchors": ["pyfakefs/fake_filesystem.py: FakeFilesystem.add_real_directory", "pyfakefs/fake_filesystem.py: FakeFilesystem.add_real_symlink", "pyfakefs/fake_filesystem.py: FakeFilesystem.add_real_file"]}
{"id": "C75", "title": "Times and fields of stat results", "statement": "A time of a file set in whole seconds (int or float) is reported back exactly, as st_mtime (float or int), st_mtime_ns and st[8]; nanoseconds are exact; a time read as a float is right to 1.5 microseconds, a time set from a float to 257 nanoseconds, and copying a time through floats changes it by less than a microsecond; a time read as an int is rounded down. st[i] exists exactly for i from 0 to 9. A result keeps its float or int form when stat_float_times changes later. Two results are equal when all their fields are. On Windows st_file_attributes and st_reparse_tag tell files, directories and links apart.", "quantifier": "every stat result, time value (int or binary64 float in range) and later setting", "why_tests_cant": "Depends on binary64 rounding of every nanosecond count; tests try a few times.", "anchors": ["pyfakefs/helpers.py: FakeStatResult"]}
{"id": "C76", "title": "Text files", "statement": "Opening a file in a text mode that starts empty, writing any texts and closing returns the number of characters of each and leaves exactly the encoded texts in the file, newlines translated as the newline argument says; opening it for reading with any encoding and newline argument and calling read() decodes exactly these bytes. With the same sound encoding (UTF-8, Latin-1) the text comes back: always with newline='' (or when no translation was asked for), and with newline=None if it has no carriage return. Appending puts the encoded texts after the bytes the file had. With line buffering, a text with a newline is in the file as soon as write returns. A text the encoding cannot express is refused without any effect.", "quantifier": "every reachable state with its handles, path, text mode, stateless encoding (errors='strict'), newline argument, sequence of texts and disk limit", "why_tests_cant": "All texts, chunkings around the 8192-byte buffer, encodings and newline arguments; tests try a few strings.", "anchors": ["pyfakefs/fake_filesystem.py: FakeFileWrapper.__init__, _write_wrapper, __getattr__", "pyfakefs/helpers.py: TextBufferIO"]}
{"id": "C77", "title": "Lazily added real directories look like the real ones", "statement": "After a real directory was added lazily, looking up any path below it gives exactly the entry of the real directory there (file with its content and attributes, link with its text, directory; read-only files without write permission if asked for) and nothing where the real one has nothing, and listing any directory of it gives the real names, regardless of which parts were looked at before and of other calls elsewhere in between. Looking never changes or removes what could be seen before; it only adds entries below the added directory, and looking a second time changes nothing.", "quantifier": "every reachable state, real directory tree, path below it, and sequence of earlier looks, listings and other changes outside it", "why_tests_cant": "All trees and all orders in which their parts are read for the first time; tests read a few paths of one fixture.", "anchors": ["pyfakefs/fake_filesystem.py: FakeFilesystem.add_real_directory, FakeDirectoryFromRealDirectory, FakeFilesystem._directory_content"]}
{"id": "C78", "title": "Reading line by line gives the bytes of the file", "statement": "readline(n), readlines(hint), readinto(buffer) and iteration of a binary file object give the bytes of the file from the position on: a line ends after its first newline byte or at the end of the file, readline(n) gives at most n bytes of it, readlines(hint) stops after the line that brings the total to the hint, and the lines joined together are the file contents. The position moves by what was returned. Objects not open for reading, or closed, raise instead.", "quantifier": "every file content, position, limit, hint and buffer size, after every history of calls through any handles", "why_tests_cant": "All contents, positions and interleavings with other handles; tests read a few literal lines.", "anchors": ["pyfakefs/fake_filesystem.py: FakeFileWrapper.__getattr__, FakeFileWrapper._read_wrappers, FakeFileWrapper._read_error, FakeFileWrapper.__iter__, FakeFileWrapper.__next__"]}
{"id": "C79", "title": "os.sendfile copies the bytes asked for", "statement": "os.sendfile(out, in, offset, count) takes at most count bytes of the source file, from the given offset or, for None, from its position, puts them over the destination's bytes at its position, and returns how many there were. The source file is unchanged and its position moves only if the offset is None; the destination's position moves by that many bytes; other files are untouched. Called repeatedly it copies the rest of the source. Standard streams give EINVAL, descriptors that are not open EBADF.", "quantifier": "every pair of open files, positions, offsets and counts, after every history that leaves the handles usable for it", "why_tests_cant": "All contents, offsets, counts and call sequences; tests copy two literals.", "anchors": ["pyfakefs/fake_filesystem.py: FakeOsModule.sendfile, FakeFileWrapper"]}
{"id": "C80", "title": "dir_fd arguments name the directory behind the descriptor", "statement": "A call of an os function with dir_fd (src_dir_fd, dst_dir_fd) and a relative path acts like the call on the entry that the path leads to from the directory the descriptor was opened on, under whatever name this directory has by now: mkdir makes exactly one directory there, unlink and rmdir remove exactly that name, rename moves that entry, and every other call gives what it gives for the directory's path joined with the relative path. Absolute paths ignore the descriptor. A descriptor that is not open raises EBADF.", "quantifier": "every reachable state, open directory descriptor, relative path and call taking dir_fd, after any renames", "why_tests_cant": "All directories, paths, calls and histories between opening the descriptor and using it; tests use one file in one directory.", "anchors": ["pyfakefs/fake_filesystem.py: FakeOsModule._path_with_dir_fd, FakeOsModule.open, FakeOsModule.stat, FakeOsModule.mkdir, FakeOsModule.unlink, FakeOsModule.rmdir, FakeOsModule.rename, FakeOsModule.symlink, FakeOsModule.link"]}
{"id": "C81", "title": "Path.write_text then read_text gives the text back", "statement": "Path(p).write_text(t, encoding) that succeeds returns the number of characters and leaves exactly the encoded text in the file p leads to (a new file if there was none), changing no other file; read_text of p with the same encoding then returns t, if t has no carriage return (otherwise '\\r\\n' and '\\r' come back as '\\n'). With room on the disk it fails only if open(p, 'w') fails or if the text cannot be encoded, and then UnicodeEncodeError is raised and the file is left empty.", "quantifier": "every path, text, sound stateless encoding and history of calls (with other files open)", "why_tests_cant": "Ranges over all histories, texts, encodings and link structures.", "anchors": ["pyfakefs/fake_pathlib.py: FakePath.read_text", "pyfakefs/fake_pathlib.py: FakePath.write_text", "pyfakefs/fake_filesystem.py: FakeFileWrapper"]}
{"id": "C82", "title": "os.walk and os.scandir while the filesystem changes", "statement": "Whatever calls are made between the steps of an os.walk: top-down, each tuple is the true listing of its directory at the moment it is yielded, its directory is the top or a name the caller left in an earlier tuple's list, links are not followed unless asked for, and when the walk ends every name left in a list has been visited unless it was a link; bottom-up, each tuple was the true listing of its directory at that or an earlier step, and every directory in it that was not a link came before it. If nothing changes the steps give what C46 says. os.scandir tells one name per step, in the order of the listing and as the name is at that step; once entries were added or removed (so that their number differs) it raises RuntimeError.", "quantifier": "every tree, top, option and sequence of calls made between the steps of the walk or scan", "why_tests_cant": "Ranges over all interleavings of the iterator with changes of the filesystem.", "anchors": ["pyfakefs/fake_scandir.py: walk", "pyfakefs/fake_scandir.py: ScanDirIter", "pyfakefs/fake_scandir.py: _classify_directory_contents"]}
{"id": "C83", "title": "shutil.rmtree removes the tree and nothing else", "statement": "However shutil.rmtree of a directory ends - with success, with an error at any of its steps, with errors ignored -, the only entries that are gone are those of the directories of the tree and the name of the tree itself, no directory is gone that still had entries, no file was written to or changed its mode, the current directory and the user are the same, the descriptors that were open are open and no others are. Links inside the tree are removed and not followed. If it succeeded (without ignoring errors) the name is gone and every directory of the tree is empty. The tree a symbolic link leads to is not removed: that is an error and nothing is changed. Called by root on a directory whose subdirectories (and parent) can be read, with no disk over its size, rmtree succeeds.", "quantifier": "every reachable state, every directory in it, every depth of the tree and every outcome", "why_tests_cant": "Ranges over all trees, all permissions and all points at which the removal can stop.", "anchors": ["pyfakefs/fake_filesystem_shutil.py: FakeShutilModule.__getattr__", "pyfakefs/fake_filesystem.py: FakeOsModule.open", "pyfakefs/fake_filesystem.py: FakeOsModule.unlink", "pyfakefs/fake_filesystem.py: FakeOsModule.rmdir", "pyfakefs/fake_filesystem.py: FakeFilesystem.remove", "pyfakefs/fake_filesystem.py: FakeFilesystem.rmdir", "pyfakefs/fake_scandir.py: ScanDirIter"]}
{"id": "C84", "title": "os.path.getsize and the get*time functions agree with os.stat", "statement": "What os.path.getsize, getmtime, getatime and getctime return is the field of the os.stat result of the path, whoever asks. For root they succeed whenever os.stat does, getsize raises exactly the error of os.stat, and the times of a path that os.stat refuses raise FileNotFoundError. No other exception comes out of the time getters. Path.samefile tells whether two paths lead to the same object.", "quantifier": "every reachable state, every path, every user", "why_tests_cant": "Ranges over all histories, paths (links, loops, separators) and permissions.", "anchors": ["pyfakefs/fake_filesystem.py: FakePathModule.getsize", "pyfakefs/fake_filesystem.py: FakePathModule.getmtime", "pyfakefs/fake_filesystem.py: FakePathModule.getatime", "pyfakefs/fake_filesystem.py: FakePathModule.getctime", "pyfakefs/fake_pathlib.py: FakePath.samefile"]}
{"id": "C85", "title": "Path.mkdir with parents and exist_ok", "statement": "However Path.mkdir(mode, parents, exist_ok) of an absolute path ends, the only change is that missing directories of the path were made, and nothing changed if it failed without parents. If it succeeded the path is a directory: a new empty one with the given mode (the umask taken off), or, with exist_ok, one that was there. A path that exists is FileExistsError and changes nothing, unless exist_ok is given and it is a directory.", "quantifier": "every reachable state, every absolute path (of any length, also through symbolic links), every mode, parents and exist_ok, every user", "why_tests_cant": "Ranges over all histories, path lengths and all points at which making the parents can stop.", "anchors": ["pyfakefs/fake_pathlib.py: _FakeAccessor", "pyfakefs/fake_filesystem.py: FakeFilesystem.makedir", "pyfakefs/fake_filesystem.py: FakeFilesystem.stat"]}
{"id": "C86", "title": "shutil.copyfileobj copies the rest of the source", "statement": "shutil.copyfileobj between two open binary files of different names copies, whatever the length of the parts it is asked to use, all bytes from the position of the source on: after the destination is flushed or closed, its file has its old bytes and then these. The source file and its bytes stay, its position is at its end, and no other file changes; the only failure is a full disk.", "quantifier": "every pair of open handles of different files, all contents and positions, every length argument (also 0 and negative), every buffer size", "why_tests_cant": "The number of rounds, the alignment of parts and buffer, and the contents are unbounded.", "anchors": ["pyfakefs/fake_filesystem.py: FakeFileWrapper.read", "pyfakefs/fake_filesystem.py: FakeFileWrapper.write", "pyfakefs/fake_filesystem.py: FakeFileWrapper.flush", "pyfakefs/fake_filesystem.py: FakeFileWrapper.close"]}
