{
 "C01": {
  "note": "POSIX-like configurations (any separator but '.'), all strings"
 },
 "C06": {
  "note": "every configuration; on Windows up to replacement of the alternative separator, as the code does"
 },
 "C07": {
  "note": "POSIX flavour"
 },
 "C11": {
  "note": "partial: found implies exists fails for other spellings of the null device (C11_null_device_refuted); proved for all other paths"
 },
 "C16": {
  "note": "partial: false below a top-level directory whose name looks like a drive, e.g. 'x:' (C16_drive_like_name_refuted); proved otherwise"
 },
 "C20": {
  "note": "partial: remove of a directory that was given file type bits by its creator deletes the tree (C20_remove_directory_refuted); proved when mode bits are honest"
 },
 "C21": {
  "note": "partial: as root, rmdir of a symlink inside an unreadable directory removes the link (C21_rmdir_link_refuted); the rest is proved"
 },
 "C24": {
  "note": "partial: EACCES/ENOSPC/EXDEV raised after the source or target entry was removed loses a file (two refutations); C24_failed_rename_partial says exactly what a failed rename leaves alone in all cases"
 },
 "C28": {
  "note": "partial: os.open with an explicit mode ignores the umask (C28_os_open_refuted)"
 },
 "C29": {
  "note": "partial: the code always looks at the owner bits (C29_owner_refuted); proved: what it answers instead"
 },
 "C30": {
  "note": "partial: chdir never denies, and a link text leading above the root gives a non-normalized cwd (C30_refuted)"
 },
 "C31": {
  "note": "partial: the errno values of the two flags are swapped (C31_errno_refuted); the map behaviour is proved"
 },
 "C32": {
  "note": "partial: through a relative link on the way the directories are made relative to the cwd (C32_relative_link_refuted), or the call fails (C32_create_file_refuted); proved for paths without such links, for makedirs, fs.create_dir and create_file"
 },
 "C34": {
  "note": "partial: a limit set for the first time below the used size is accepted (C34_first_limit_refuted); invariant proved for all histories without this"
 },
 "C35": {
  "note": "partial: proved for all tidy histories (UsageSpec.tidy); four refutations show the calls that break the accounting"
 },
 "C36": {
  "note": "partial: truncating an empty file sets st_size only (C36_empty_truncate_refuted); proved for non-empty contents in any history, and always in histories without truncate"
 },
 "C38": {
  "note": "partial: negative numbers are accepted as descriptors (C38_fdopen_negative_refuted)"
 },
 "C39": {
  "note": "partial: os.close(-1) closes the last descriptor; closing a pipe end leaves an empty slot (two refutations)"
 },
 "C41": {
  "note": "partial: a partial flush of an r+ handle cuts the file; truncate beyond the end moves the position (two refutations); proved for synced handles and positioned use"
 },
 "C43": {
  "note": "partial: buffered unwritten data of other handles may be lost or written twice (three refutations); proved for handles without unwritten data"
 },
 "C45": {
  "note": "partial: os.truncate of an empty file does not pad (C45_empty_refuted); otherwise proved"
 },
 "C46": {
  "note": "partial: root follows links inside directories without read bit; an unreadable directory is listed among files (two refutations); proved for readable trees"
 },
 "C47": {
  "note": "partial: is_file is True for dangling links; scandir('') lists the root (two refutations); proved otherwise"
 },
 "C48": {
  "note": "partial: four refutations show what restoring gets wrong (set after smart_set, methods through instances, classmethods, inherited attributes); proved for all histories without these"
 },
 "C49": {
  "note": "partial: fake modules stay in sys.modules, reloaded modules vanish, linecache.open is left (three refutations); proved up to these names"
 },
 "C50": {
  "note": "partial: prefix match is by characters, not components; mounting on an existing directory raises but registers; hard links and renames change devices (four refutations)"
 },
 "C52": {
  "note": "partial: two spellings can coexist, then the exact one does not always win (C52_exact_match_wins_refuted); proved when every name has one spelling"
 },
 "C53": {
  "note": "partial: create_symlink/create_file on a full disk in a directory that is writable but not searchable leaves an entry (C53_full_disk_refuted); a failed link leaves the new name in the .name of the old file object (C53_link_name_refuted); proved for mkdir, symlink, remove, rmdir, chdir, mknod, link (up to that name), all attribute calls and open of an existing file"
 },
 "C55": {
  "note": "partial: for separator '/'; with another separator and a relative path the result is wrong, because the host relpath gets the untranslated current directory (C55_separator_refuted)"
 },
 "C56": {
  "note": "partial: absolute paths, in states where every directory has the read bit and mode bits agree with the kind of object; refuted: realpath of a relative path can recurse without end (C56_endless_refuted), and '..' after a link is taken differently by realpath and by all other calls (C56_dotdot_refuted)"
 },
 "C59": {
  "note": "refuted for files made with foreign type bits (C59_type_bits_refuted); the theorems are complete for histories without them"
 },
 "C60": {
  "note": "partial: listdir works for a root-level link '../d' for which isdir and exists say no (C60_parent_of_root_refuted); a user who is not root may be refused stat of an existing path (C60_permissions_refuted); the null device is left out"
 },
 "C61": {
  "note": "a link that does not fit on a full disk can stay without text (C61_full_disk_refuted)"
 },
 "C62": {
  "note": "partial: directories must be readable, also for root (C62_unreadable_refuted); the current directory has no link on it; Windows flavour not modelled"
 },
 "C64": {
  "note": "creation is proved for root, absolute spelling of the resolved path without a trailing separator; the umask is not applied (C64_umask_refuted)"
 },
 "C65": {
  "note": "refuted for rename onto an existing name through a relative link (KeyError, file lost), truncate of a directory (AttributeError) and makedirs below a file created by size (TypeError); C65_all_errors shows there is nothing else; disks without size limits, POSIX configurations"
 },
 "C67": {
  "note": "splitdrive and normcase in full; normpath for paths without a colon after the drive; with one it is refuted (C67_colon_refuted: a name with a colon can become a drive)"
 },
 "C68": {
  "note": "join, isabs in full; abspath unless the path is relative to another drive (stays relative) or rooted with a current directory on a network share (loses the share): both refuted; no colon in names"
 },
 "C70": {
  "note": "Proved for every flag word without O_TMPFILE bits, for paths other than the null device. Refuted: opening an existing file resets its permission bits (C70_mode_refuted), O_DIRECTORY is taken as O_TMPFILE and creates a file in the directory (C70_directory_refuted), a non-owner cannot open a write-only file for writing (C70_write_only_refuted)."
 },
 "C71": {
  "note": "C71_removedirs is the property. Refuted is what Python's os.removedirs promises in addition, that errors on the way up are not raised: C71_last_directory_refuted (EBUSY when the root directory is left empty), C71_ancestor_refuted (EACCES after the leaf is gone).",
  "status": "proved"
 },
 "C72": {
  "note": "partial: absolute paths; a bare relative name is created in the root directory (C72_relative_refuted); the new file cannot be read (C72_read_refuted)"
 },
 "C73": {
  "note": "partial: separator '/' (C73_separator_refuted); a failing call on a full disk leaves the file (C73_full_disk_refuted); contents read late are modelled as read at once, except C73_truncate_refuted: truncating a file that was not read yet keeps its contents"
 },
 "C74": {
  "note": "Proved for every real tree, and every target path without links on it (and whose first name is not like `c:`): all files and links are there, only they and the directories above them, everything elsewhere is unchanged. Refuted: directories without files are left out and the modes of directories are lost (0o777); below a directory `/c:` the files are put relative to the current directory. The lazy variant is not modelled."
 },
 "C75": {
  "note": "Proved with binary64 rounding defined on rationals (rnd, shown to give a nearest double). Refuted: int times and st[7..9] can be one second too large (C75_read_int_refuted; partial: right unless within 733 ns of the next second); copying through floats is not exact (C75_copy_time_refuted); every regular file has the reparse-point attribute and the symlink tag, every directory the device attribute (C75_attributes_refuted)."
 },
 "C76": {
  "note": "The theorems take any stateless codec (UTF-8 and Latin-1 are defined and proved sound). Outside the statement: readline/iteration, text seek/tell, UTF-16's byte order mark, errors= other than strict."
 },
 "C77": {
  "status": "partial",
  "note": "Proved for Linux-like configurations, the target's parent existing and not behind a link, target name not drive-like, looks and listings that return, and calls in between that leave the added tree alone. Refuted in full: a look that fails while the directory is being filled (EACCES for an unprivileged user, ENOSPC) leaves it marked as read, so the missing entries never appear (C77_unwritable_refuted, C77_full_refuted); a target path with a trailing slash produces an entry with an empty name (C77_slash_refuted)."
 },
 "C78": {
  "status": "partial",
  "note": "Proved for handles not in append mode whose calls so far were of the kind of C43 (readline, readlines, readinto: any other handles in between, the bytes shown are those of the file now) and, for iteration, directly after opening or a read. Refuted in full: iterating an append handle ignores seek() (C78_append_refuted), a closed handle can be iterated over (C78_closed_refuted), iteration shows the contents as of the last read, not the file's (C78_stale_refuted)."
 },
 "C79": {
  "status": "partial",
  "note": "Proved for two handles of different files, not in append mode, that have the current bytes of their files before them (directly after opening, an os.write or a read, and after calls that leave handle and file alone: C79_opened, C79_wrote, C79_read, C79_alone), the destination not read since. Linux only: on macOS sendfile needs a socket, on Windows it does not exist. Refuted: to a destination that was read from, the bytes after the copy can be lost (C79_read_first_refuted)."
 },
 "C80": {
  "status": "partial",
  "note": "Proved for Linux-like configurations and directories not below a top-level directory with a name like 'x:' (C80_drive_refuted, see C16). Refuted: os.symlink applies dir_fd to the link text instead of the new link's path (C80_symlink_refuted); os.lstat and os.remove refuse it (C80_unsupported_refuted); the descriptor of a removed directory leads into a new directory of the same name (C80_removed_refuted); the empty path is the directory itself (C80_empty_refuted)."
 },
 "C81": {
  "note": "Host Linux (os.linesep is '\\n'), stateless codecs, errors='strict' (see TextModel.v); UTF-8 and Latin-1 are proved sound (utf8_good, latin1_good)."
 },
 "C82": {
  "note": "Partial: C82_scandir_remove_refuted shows that removing an entry that os.scandir has returned makes the iteration raise RuntimeError where a real filesystem goes on. Only the list yielded last is edited by the caller, before the next step; a directory that has other names but equally many during a scan is not modelled (SOther).",
  "status": "partial"
 },
 "C83": {
  "note": "Partial: for Linux (_rmtree_safe_fd of CPython), a path that names the directory itself (no link on the way to it; for the last two claims the absolute path), where os.path.exists is true, and a program that nothing else is running beside. C83_rmtree_done_partial: root's rmtree succeeds; for other users success is not stated. C83_file_refuted: rmtree of a regular file fails as it should, but its os.open has changed the mode of the file.",
  "status": "partial"
 },
 "C84": {
  "note": "Partial: that os.stat succeeds for another user than root whenever a getter does is not stated; getsize for root on POSIX only. C84_unreadable_refuted: the getters refuse a file the user may not read though os.stat accepts it (and the times say it is missing); C84_loop_refuted: a link loop is reported as a missing file by the times; C84_separator_refuted: the times ignore a trailing separator after a file name.",
  "status": "partial"
 },
 "C85": {
  "note": "Partial: Linux, absolute paths without '..' given by their names; for success the null device must not be among the names. C85_mkdir_done_partial: root's call succeeds where the path leaves the tree in a directory (unlimited file system, no link before the first missing name); for other users success is not stated. C85_all_or_nothing_refuted: unlike os.makedirs a failing call with parents may leave directories behind.",
  "status": "partial"
 },
 "C86": {
  "note": "Partial: not in append mode, both handles have the current bytes of their files before them (directly after opening, after os.write, or after reading: C79_opened, C79_wrote, C79_read), and the destination stands at the end of its bytes or was not moved or flushed since it was opened (C86_opened); the loop of CPython is given a number of rounds larger than the number of bytes. For two files opened for reading and writing (rb, wb) it is complete (C86_files). After a seek into the middle of a file it is refuted: the rest of the file is cut off (C86_middle_refuted).",
  "status": "partial"
 }
}