{
 "claims": [
  {
   "property": "C01",
   "status": "proved",
   "theorems": [
    "C01_normpath_canonical",
    "C01_normpath_fixed_points"
   ],
   "note": "POSIX-like configurations (any separator but '.'), all strings"
  },
  {
   "property": "C02",
   "status": "proved",
   "theorems": [
    "C02_normpath_meaning",
    "C02_normpath_complete"
   ],
   "note": ""
  },
  {
   "property": "C03",
   "status": "proved",
   "theorems": [
    "C03_absnormpath",
    "C03_abspath"
   ],
   "note": ""
  },
  {
   "property": "C04",
   "status": "proved",
   "theorems": [
    "C04_split",
    "C04_join_split"
   ],
   "note": ""
  },
  {
   "property": "C05",
   "status": "proved",
   "theorems": [
    "C05_join",
    "C05_join_assoc",
    "C05_last_absolute_wins"
   ],
   "note": ""
  },
  {
   "property": "C06",
   "status": "proved",
   "theorems": [
    "C06_splitdrive"
   ],
   "note": "every configuration; on Windows up to replacement of the alternative separator, as the code does"
  },
  {
   "property": "C07",
   "status": "proved",
   "theorems": [
    "C07_splitroot"
   ],
   "note": "POSIX flavour"
  },
  {
   "property": "C08",
   "status": "proved",
   "theorems": [
    "C08_components",
    "C08_unique"
   ],
   "note": ""
  },
  {
   "property": "C09",
   "status": "proved",
   "theorems": [
    "C09_lookups_answer",
    "C09_at_most_41_links",
    "C09_loops_are_eloop"
   ],
   "note": ""
  },
  {
   "property": "C10",
   "status": "proved",
   "theorems": [
    "C10_resolved_path_is_link_free",
    "C10_resolved_object"
   ],
   "note": ""
  },
  {
   "property": "C11",
   "status": "partial",
   "theorems": [
    "C11_found_implies_exists_partial",
    "C11_not_both",
    "C11_type_is_stat_type",
    "C11_islink_is_the_entry",
    "C11_dangling_is_a_link",
    "C11_null_device_refuted"
   ],
   "note": "partial: found implies exists fails for other spellings of the null device (C11_null_device_refuted); proved for all other paths"
  },
  {
   "property": "C12",
   "status": "proved",
   "theorems": [
    "C12_listings_have_no_duplicates",
    "C12_listed_names_are_found"
   ],
   "note": ""
  },
  {
   "property": "C13",
   "status": "proved",
   "theorems": [
    "C13_link_count_is_number_of_names"
   ],
   "note": ""
  },
  {
   "property": "C14",
   "status": "proved",
   "theorems": [
    "C14_the_tree_is_a_tree"
   ],
   "note": ""
  },
  {
   "property": "C15",
   "status": "proved",
   "theorems": [
    "C15_inode_numbers_identify_objects",
    "C15_samefile"
   ],
   "note": ""
  },
  {
   "property": "C16",
   "status": "partial",
   "theorems": [
    "C16_path_of_a_directory_partial",
    "C16_drive_like_name_refuted"
   ],
   "note": "partial: false below a top-level directory whose name looks like a drive, e.g. 'x:' (C16_drive_like_name_refuted); proved otherwise"
  },
  {
   "property": "C17",
   "status": "proved",
   "theorems": [
    "C17_create_file_missing",
    "C17_failed_create_missing",
    "C17_create_file"
   ],
   "note": ""
  },
  {
   "property": "C18",
   "status": "proved",
   "theorems": [
    "C18_create_existing",
    "C18_mkdir_symlink_existing"
   ],
   "note": ""
  },
  {
   "property": "C19",
   "status": "proved",
   "theorems": [
    "C19_mkdir"
   ],
   "note": ""
  },
  {
   "property": "C20",
   "status": "partial",
   "theorems": [
    "C20_remove_after_history",
    "C20_remove",
    "C20_remove_directory",
    "C20_remove_directory_refuted"
   ],
   "note": "partial: remove of a directory that was given file type bits by its creator deletes the tree (C20_remove_directory_refuted); proved when mode bits are honest"
  },
  {
   "property": "C21",
   "status": "partial",
   "theorems": [
    "C21_rmdir",
    "C21_rmdir_not_empty",
    "C21_rmdir_link_refuted"
   ],
   "note": "partial: as root, rmdir of a symlink inside an unreadable directory removes the link (C21_rmdir_link_refuted); the rest is proved"
  },
  {
   "property": "C22",
   "status": "proved",
   "theorems": [
    "C22_rename"
   ],
   "note": ""
  },
  {
   "property": "C23",
   "status": "proved",
   "theorems": [
    "C23_rename_into_itself"
   ],
   "note": ""
  },
  {
   "property": "C24",
   "status": "partial",
   "theorems": [
    "C24_failed_rename_partial",
    "C24_not_writable_refuted",
    "C24_other_device_refuted"
   ],
   "note": "partial: EACCES/ENOSPC/EXDEV raised after the source or target entry was removed loses a file (two refutations); C24_failed_rename_partial says exactly what a failed rename leaves alone in all cases"
  },
  {
   "property": "C25",
   "status": "proved",
   "theorems": [
    "C25_link"
   ],
   "note": ""
  },
  {
   "property": "C26",
   "status": "proved",
   "theorems": [
    "C26_symlink"
   ],
   "note": ""
  },
  {
   "property": "C27",
   "status": "proved",
   "theorems": [
    "C27_chmod",
    "C27_chmod_seen"
   ],
   "note": ""
  },
  {
   "property": "C28",
   "status": "partial",
   "theorems": [
    "C28_umask",
    "C28_new_mode",
    "C28_os_open_refuted"
   ],
   "note": "partial: os.open with an explicit mode ignores the umask (C28_os_open_refuted)"
  },
  {
   "property": "C29",
   "status": "partial",
   "theorems": [
    "C29_access_partial",
    "C29_exists",
    "C29_owner_refuted"
   ],
   "note": "partial: the code always looks at the owner bits (C29_owner_refuted); proved: what it answers instead"
  },
  {
   "property": "C30",
   "status": "partial",
   "theorems": [
    "C30_chdir_partial",
    "C30_relative",
    "C30_refuted"
   ],
   "note": "partial: chdir never denies, and a link text leading above the root gives a non-normalized cwd (C30_refuted)"
  },
  {
   "property": "C31",
   "status": "partial",
   "theorems": [
    "C31_setxattr",
    "C31_removexattr",
    "C31_listxattr",
    "C31_other_calls",
    "C31_errno_refuted"
   ],
   "note": "partial: the errno values of the two flags are swapped (C31_errno_refuted); the map behaviour is proved"
  },
  {
   "property": "C32",
   "status": "partial",
   "theorems": [
    "C32_create_file_refuted",
    "C32_create_dir_partial",
    "C32_makedirs_partial",
    "C32_relative_link_refuted",
    "C32_makedirs_existing"
   ],
   "note": "partial: through a relative link on the way the directories are made relative to the cwd (C32_relative_link_refuted), or the call fails (C32_create_file_refuted); proved for paths without such links, for makedirs, fs.create_dir and create_file"
  },
  {
   "property": "C33",
   "status": "proved",
   "theorems": [
    "C33_utime"
   ],
   "note": ""
  },
  {
   "property": "C34",
   "status": "partial",
   "theorems": [
    "C34_usage_within_size",
    "C34_truncate_no_space",
    "C34_first_limit_refuted"
   ],
   "note": "partial: a limit set for the first time below the used size is accepted (C34_first_limit_refuted); invariant proved for all histories without this"
  },
  {
   "property": "C35",
   "status": "partial",
   "theorems": [
    "C35_used_partial",
    "C35_get_disk_usage_partial",
    "C35_all_deleted_partial",
    "C35_overwrite_refuted",
    "C35_flush_refuted",
    "C35_unlinked_refuted",
    "C35_link_refuted"
   ],
   "note": "partial: proved for all tidy histories (UsageSpec.tidy); four refutations show the calls that break the accounting"
  },
  {
   "property": "C36",
   "status": "partial",
   "theorems": [
    "C36_nonempty_partial",
    "C36_no_truncate_partial",
    "C36_every_file_partial",
    "C36_empty_truncate_refuted"
   ],
   "note": "partial: truncating an empty file sets st_size only (C36_empty_truncate_refuted); proved for non-empty contents in any history, and always in histories without truncate"
  },
  {
   "property": "C37",
   "status": "proved",
   "theorems": [
    "C37_no_space"
   ],
   "note": ""
  },
  {
   "property": "C38",
   "status": "partial",
   "theorems": [
    "C38_open_lowest",
    "C38_os_open_lowest",
    "C38_pipe_lowest",
    "C38_fdopen",
    "C38_never_shared",
    "C38_close",
    "C38_os_close",
    "C38_fdopen_negative_refuted"
   ],
   "note": "partial: negative numbers are accepted as descriptors (C38_fdopen_negative_refuted)"
  },
  {
   "property": "C39",
   "status": "partial",
   "theorems": [
    "C39_bad_fd",
    "C39_closed_handle",
    "C39_closed_forever",
    "C39_negative_refuted",
    "C39_pipe_refuted"
   ],
   "note": "partial: os.close(-1) closes the last descriptor; closing a pipe end leaves an empty slot (two refutations)"
  },
  {
   "property": "C40",
   "status": "proved",
   "theorems": [
    "C40_written_is_read",
    "C40_reopens"
   ],
   "note": ""
  },
  {
   "property": "C41",
   "status": "partial",
   "theorems": [
    "C41_random_access_partial",
    "C41_positioned_partial",
    "C41_overwrite_refuted",
    "C41_truncate_refuted"
   ],
   "note": "partial: a partial flush of an r+ handle cuts the file; truncate beyond the end moves the position (two refutations); proved for synced handles and positioned use"
  },
  {
   "property": "C42",
   "status": "proved",
   "theorems": [
    "C42_append_only"
   ],
   "note": ""
  },
  {
   "property": "C43",
   "status": "partial",
   "theorems": [
    "C43_file",
    "C43_read_partial",
    "C43_os_write_partial",
    "C43_position",
    "C43_write_then_read_partial",
    "C43_unwritten_refuted",
    "C43_append_refuted",
    "C43_truncate_refuted"
   ],
   "note": "partial: buffered unwritten data of other handles may be lost or written twice (three refutations); proved for handles without unwritten data"
  },
  {
   "property": "C44",
   "status": "proved",
   "theorems": [
    "C44_success",
    "C44_failure",
    "C44_root_opens",
    "C44_root_creates",
    "C44_direction",
    "C44_bad_mode"
   ],
   "note": ""
  },
  {
   "property": "C45",
   "status": "partial",
   "theorems": [
    "C45_os_truncate_partial",
    "C45_handle_truncate",
    "C45_empty_refuted"
   ],
   "note": "partial: os.truncate of an empty file does not pad (C45_empty_refuted); otherwise proved"
  },
  {
   "property": "C46",
   "status": "partial",
   "theorems": [
    "C46_every_directory_once_partial",
    "C46_walks_end",
    "C46_link_followed_refuted",
    "C46_directory_among_files_refuted"
   ],
   "note": "partial: root follows links inside directories without read bit; an unreadable directory is listed among files (two refutations); proved for readable trees"
  },
  {
   "property": "C47",
   "status": "partial",
   "theorems": [
    "C47_scandir_is_listdir_partial",
    "C47_dangling_is_file_refuted",
    "C47_empty_path_refuted"
   ],
   "note": "partial: is_file is True for dangling links; scandir('') lists the root (two refutations); proved otherwise"
  },
  {
   "property": "C48",
   "status": "partial",
   "theorems": [
    "C48_restored_partial",
    "C48_dropped_partial",
    "C48_smart_restored_partial",
    "C48_again",
    "C48_set_value",
    "C48_modules",
    "C48_mixed_refuted",
    "C48_instance_refuted",
    "C48_classmethod_refuted",
    "C48_inherited_refuted"
   ],
   "note": "partial: four refutations show what restoring gets wrong (set after smart_set, methods through instances, classmethods, inherited attributes); proved for all histories without these"
  },
  {
   "property": "C49",
   "status": "partial",
   "theorems": [
    "C49_reference_partial",
    "C49_life_partial",
    "C49_patched",
    "C49_fake_stays_refuted",
    "C49_reload_refuted",
    "C49_linecache_refuted"
   ],
   "note": "partial: fake modules stay in sys.modules, reloaded modules vanish, linecache.open is left (three refutations); proved up to these names"
  },
  {
   "property": "C50",
   "status": "partial",
   "theorems": [
    "C50_devices_unique",
    "C50_mount_for_path_partial",
    "C50_look_alike_refuted",
    "C50_add_mount_partial",
    "C50_mounted_twice",
    "C50_existing_directory_refuted",
    "C50_created_device",
    "C50_link_refuted",
    "C50_rename_refuted"
   ],
   "note": "partial: prefix match is by characters, not components; mounting on an existing directory raises but registers; hard links and renames change devices (four refutations)"
  },
  {
   "property": "C51",
   "status": "proved",
   "theorems": [
    "C51_remove_tree"
   ],
   "note": ""
  },
  {
   "property": "C52",
   "status": "partial",
   "theorems": [
    "C52_lookup_partial",
    "C52_as_folded",
    "C52_spelling_irrelevant",
    "C52_case_sensitive_exact",
    "C52_exact_match_wins_refuted"
   ],
   "note": "partial: two spellings can coexist, then the exact one does not always win (C52_exact_match_wins_refuted); proved when every name has one spelling"
  },
  {
   "property": "C53",
   "status": "partial",
   "theorems": [
    "C53_failed_attribute_calls",
    "C53_failed_link",
    "C53_link_name_refuted",
    "C53_failed_open",
    "C53_failed_mknod",
    "C53_failed_mkdir_symlink",
    "C53_failed_remove_rmdir",
    "C53_failed_chdir",
    "C53_full_disk_refuted"
   ],
   "note": "partial: create_symlink/create_file on a full disk in a directory that is writable but not searchable leaves an entry (C53_full_disk_refuted); a failed link leaves the new name in the .name of the old file object (C53_link_name_refuted); proved for mkdir, symlink, remove, rmdir, chdir, mknod, link (up to that name), all attribute calls and open of an existing file"
  },
  {
   "property": "C54",
   "status": "proved",
   "theorems": [
    "C54_chown",
    "C54_other_calls"
   ],
   "note": ""
  },
  {
   "property": "C55",
   "status": "partial",
   "theorems": [
    "C55_relpath_partial",
    "C55_separator_refuted"
   ],
   "note": "partial: for separator '/'; with another separator and a relative path the result is wrong, because the host relpath gets the untranslated current directory (C55_separator_refuted)"
  },
  {
   "property": "C56",
   "status": "partial",
   "theorems": [
    "C56_realpath_partial",
    "C56_same_object_partial",
    "C56_dotdot_refuted",
    "C56_endless_refuted"
   ],
   "note": "partial: absolute paths, in states where every directory has the read bit and mode bits agree with the kind of object; refuted: realpath of a relative path can recurse without end (C56_endless_refuted), and '..' after a link is taken differently by realpath and by all other calls (C56_dotdot_refuted)"
  },
  {
   "property": "C57",
   "status": "proved",
   "theorems": [
    "C57_ismount"
   ],
   "note": ""
  },
  {
   "property": "C58",
   "status": "proved",
   "theorems": [
    "C58_directory_size"
   ],
   "note": ""
  },
  {
   "property": "C59",
   "status": "partial",
   "theorems": [
    "C59_lookups_raise_only_oserror",
    "C59_walk_never_raises",
    "C59_type_bits_refuted"
   ],
   "note": "refuted for files made with foreign type bits (C59_type_bits_refuted); the theorems are complete for histories without them"
  },
  {
   "property": "C60",
   "status": "partial",
   "theorems": [
    "C60_isdir_listdir_partial",
    "C60_parent_of_root_refuted",
    "C60_islink_readlink",
    "C60_exists_stat_partial",
    "C60_isfile_open",
    "C60_permissions_refuted"
   ],
   "note": "partial: listdir works for a root-level link '../d' for which isdir and exists say no (C60_parent_of_root_refuted); a user who is not root may be refused stat of an existing path (C60_permissions_refuted); the null device is left out"
  },
  {
   "property": "C61",
   "status": "partial",
   "theorems": [
    "C61_mode_tells_directories",
    "C61_links_have_texts",
    "C61_full_disk_refuted"
   ],
   "note": "a link that does not fit on a full disk can stay without text (C61_full_disk_refuted)"
  },
  {
   "property": "C62",
   "status": "partial",
   "theorems": [
    "C62_resolve_partial",
    "C62_strict_partial",
    "C62_realpath_partial",
    "C62_unreadable_refuted"
   ],
   "note": "partial: directories must be readable, also for root (C62_unreadable_refuted); the current directory has no link on it; Windows flavour not modelled"
  },
  {
   "property": "C63",
   "status": "proved",
   "theorems": [
    "C63_bytes"
   ],
   "note": ""
  },
  {
   "property": "C64",
   "status": "partial",
   "theorems": [
    "C64_existing",
    "C64_missing_partial",
    "C64_umask_refuted"
   ],
   "note": "creation is proved for root, absolute spelling of the resolved path without a trailing separator; the umask is not applied (C64_umask_refuted)"
  },
  {
   "property": "C65",
   "status": "partial",
   "theorems": [
    "C65_calls_raise_only_OSError",
    "C65_all_errors",
    "C65_rename_refuted",
    "C65_truncate_refuted",
    "C65_makedirs_refuted"
   ],
   "note": "refuted for rename onto an existing name through a relative link (KeyError, file lost), truncate of a directory (AttributeError) and makedirs below a file created by size (TypeError); C65_all_errors shows there is nothing else; disks without size limits, POSIX configurations"
  },
  {
   "property": "C66",
   "status": "proved",
   "theorems": [
    "C66_no_endless_recursion"
   ],
   "note": ""
  },
  {
   "property": "C67",
   "status": "partial",
   "theorems": [
    "C67_normcase",
    "C67_splitdrive",
    "C67_normpath_partial",
    "C67_normpath_complete_partial",
    "C67_colon_refuted"
   ],
   "note": "splitdrive and normcase in full; normpath for paths without a colon after the drive; with one it is refuted (C67_colon_refuted: a name with a colon can become a drive)"
  },
  {
   "property": "C68",
   "status": "partial",
   "theorems": [
    "C68_join",
    "C68_absolute_wins",
    "C68_isabs",
    "C68_abspath_partial",
    "C68_other_drive_refuted",
    "C68_share_refuted"
   ],
   "note": "join, isabs in full; abspath unless the path is relative to another drive (stays relative) or rooted with a current directory on a network share (loses the share): both refuted; no colon in names"
  },
  {
   "property": "C69",
   "status": "proved",
   "theorems": [
    "C69_splitroot",
    "C69_extended",
    "C69_extended_unc",
    "C69_same_drive",
    "C69_again"
   ],
   "note": ""
  },
  {
   "property": "C70",
   "status": "partial",
   "theorems": [
    "C70_success",
    "C70_failure",
    "C70_direction",
    "C70_mode_refuted",
    "C70_directory_refuted",
    "C70_write_only_refuted"
   ],
   "note": "Proved for every flag word without O_TMPFILE bits, for paths other than the null device. Refuted: opening an existing file resets its permission bits (C70_mode_refuted), O_DIRECTORY is taken as O_TMPFILE and creates a file in the directory (C70_directory_refuted), a non-owner cannot open a write-only file for writing (C70_write_only_refuted)."
  },
  {
   "property": "C71",
   "status": "proved",
   "theorems": [
    "C71_removedirs",
    "C71_last_directory_refuted",
    "C71_ancestor_refuted"
   ],
   "note": "C71_removedirs is the property. Refuted is what Python's os.removedirs promises in addition, that errors on the way up are not raised: C71_last_directory_refuted (EBUSY when the root directory is left empty), C71_ancestor_refuted (EACCES after the leaf is gone)."
  },
  {
   "property": "C72",
   "status": "partial",
   "theorems": [
    "C72_mknod_partial",
    "C72_relative_refuted",
    "C72_read_refuted"
   ],
   "note": "partial: absolute paths; a bare relative name is created in the root directory (C72_relative_refuted); the new file cannot be read (C72_read_refuted)"
  },
  {
   "property": "C73",
   "status": "partial",
   "theorems": [
    "C73_add_real_file_partial",
    "C73_failed_partial",
    "C73_full_disk_refuted",
    "C73_separator_refuted",
    "C73_truncate_refuted",
    "C73_read_late"
   ],
   "note": "partial: separator '/' (C73_separator_refuted); a failing call on a full disk leaves the file (C73_full_disk_refuted); contents read late are modelled as read at once, except C73_truncate_refuted: truncating a file that was not read yet keeps its contents"
  },
  {
   "property": "C74",
   "status": "partial",
   "theorems": [
    "C74_add_real_directory_partial",
    "C74_directories_refuted",
    "C74_drive_refuted"
   ],
   "note": "Proved for every real tree, and every target path without links on it (and whose first name is not like `c:`): all files and links are there, only they and the directories above them, everything elsewhere is unchanged. Refuted: directories without files are left out and the modes of directories are lost (0o777); below a directory `/c:` the files are put relative to the current directory. The lazy variant is not modelled."
  },
  {
   "property": "C75",
   "status": "partial",
   "theorems": [
    "C75_whole_seconds",
    "C75_read_time",
    "C75_read_int_partial",
    "C75_read_int_refuted",
    "C75_set_float",
    "C75_copy_time",
    "C75_copy_time_refuted",
    "C75_set_ns",
    "C75_items",
    "C75_item_fields",
    "C75_frozen",
    "C75_equal",
    "C75_directory_attribute",
    "C75_attributes_refuted"
   ],
   "note": "Proved with binary64 rounding defined on rationals (rnd, shown to give a nearest double). Refuted: int times and st[7..9] can be one second too large (C75_read_int_refuted; partial: right unless within 733 ns of the next second); copying through floats is not exact (C75_copy_time_refuted); every regular file has the reparse-point attribute and the symlink tag, every directory the device attribute (C75_attributes_refuted)."
  },
  {
   "property": "C76",
   "status": "proved",
   "theorems": [
    "C76_text_is_read",
    "C76_same_text",
    "C76_utf8",
    "C76_append_text",
    "C76_line_buffered",
    "C76_refused",
    "C76_carriage_return_lost"
   ],
   "note": "The theorems take any stateless codec (UTF-8 and Latin-1 are defined and proved sound). Outside the statement: readline/iteration, text seek/tell, UTF-16's byte order mark, errors= other than strict."
  },
  {
   "property": "C77",
   "status": "partial",
   "theorems": [
    "C77_added",
    "C77_lookups_partial",
    "C77_listings_partial",
    "C77_frame",
    "C77_unwritable_refuted",
    "C77_full_refuted",
    "C77_slash_refuted"
   ],
   "note": "Proved for Linux-like configurations, the target's parent existing and not behind a link, target name not drive-like, looks and listings that return, and calls in between that leave the added tree alone. Refuted in full: a look that fails while the directory is being filled (EACCES for an unprivileged user, ENOSPC) leaves it marked as read, so the missing entries never appear (C77_unwritable_refuted, C77_full_refuted); a target path with a trailing slash produces an entry with an empty name (C77_slash_refuted)."
  },
  {
   "property": "C78",
   "status": "partial",
   "theorems": [
    "C78_lines_are_bytes",
    "C78_readline_partial",
    "C78_readlines_partial",
    "C78_readinto_partial",
    "C78_next_partial",
    "C78_iterate_partial",
    "C78_not_readable",
    "C78_closed",
    "C78_append_refuted",
    "C78_closed_refuted",
    "C78_stale_refuted"
   ],
   "note": "Proved for handles not in append mode whose calls so far were of the kind of C43 (readline, readlines, readinto: any other handles in between, the bytes shown are those of the file now) and, for iteration, directly after opening or a read. Refuted in full: iterating an append handle ignores seek() (C78_append_refuted), a closed handle can be iterated over (C78_closed_refuted), iteration shows the contents as of the last read, not the file's (C78_stale_refuted)."
  },
  {
   "property": "C79",
   "status": "partial",
   "theorems": [
    "C79_opened",
    "C79_wrote",
    "C79_read",
    "C79_alone",
    "C79_sendfile_partial",
    "C79_copied_partial",
    "C79_refused",
    "C79_read_first_refuted"
   ],
   "note": "Proved for two handles of different files, not in append mode, that have the current bytes of their files before them (directly after opening, an os.write or a read, and after calls that leave handle and file alone: C79_opened, C79_wrote, C79_read, C79_alone), the destination not read since. Linux only: on macOS sendfile needs a socket, on Windows it does not exist. Refuted: to a destination that was read from, the bytes after the copy can be lost (C79_read_first_refuted)."
  },
  {
   "property": "C80",
   "status": "partial",
   "theorems": [
    "C80_path_partial",
    "C80_absolute",
    "C80_bad",
    "C80_stays",
    "C80_call_partial",
    "C80_mkdir_partial",
    "C80_unlink_partial",
    "C80_rmdir_partial",
    "C80_rename_partial",
    "C80_name",
    "C80_symlink_refuted",
    "C80_unsupported_refuted",
    "C80_removed_refuted",
    "C80_empty_refuted",
    "C80_drive_refuted"
   ],
   "note": "Proved for Linux-like configurations and directories not below a top-level directory with a name like 'x:' (C80_drive_refuted, see C16). Refuted: os.symlink applies dir_fd to the link text instead of the new link's path (C80_symlink_refuted); os.lstat and os.remove refuse it (C80_unsupported_refuted); the descriptor of a removed directory leads into a new directory of the same name (C80_removed_refuted); the empty path is the directory itself (C80_empty_refuted)."
  },
  {
   "property": "C81",
   "status": "proved",
   "theorems": [
    "C81_write_text",
    "C81_text_comes_back"
   ],
   "note": "Host Linux (os.linesep is '\\n'), stateless codecs, errors='strict' (see TextModel.v); UTF-8 and Latin-1 are proved sound (utf8_good, latin1_good)."
  },
  {
   "property": "C82",
   "status": "partial",
   "theorems": [
    "C82_walk_topdown",
    "C82_walk_bottomup",
    "C82_undisturbed",
    "C82_scandir",
    "C82_scandir_changed",
    "C82_scandir_remove_refuted"
   ],
   "note": "Partial: C82_scandir_remove_refuted shows that removing an entry that os.scandir has returned makes the iteration raise RuntimeError where a real filesystem goes on. Only the list yielded last is edited by the caller, before the next step; a directory that has other names but equally many during a scan is not modelled (SOther)."
  },
  {
   "property": "C83",
   "status": "partial",
   "theorems": [
    "C83_rmtree_safe_partial",
    "C83_rmtree_gone_partial",
    "C83_link_refused_partial",
    "C83_file_refuted",
    "C83_rmtree_done_partial"
   ],
   "note": "Partial: for Linux (_rmtree_safe_fd of CPython), a path that names the directory itself (no link on the way to it; for the last two claims the absolute path), where os.path.exists is true, and a program that nothing else is running beside. C83_rmtree_done_partial: root's rmtree succeeds; for other users success is not stated. C83_file_refuted: rmtree of a regular file fails as it should, but its os.open has changed the mode of the file."
  },
  {
   "property": "C84",
   "status": "partial",
   "theorems": [
    "C84_getters_agree_with_stat",
    "C84_root_getsize",
    "C84_root_times",
    "C84_root_no_times",
    "C84_errors",
    "C84_samefile",
    "C84_unreadable_refuted",
    "C84_loop_refuted",
    "C84_separator_refuted"
   ],
   "note": "Partial: that os.stat succeeds for another user than root whenever a getter does is not stated; getsize for root on POSIX only. C84_unreadable_refuted: the getters refuse a file the user may not read though os.stat accepts it (and the times say it is missing); C84_loop_refuted: a link loop is reported as a missing file by the times; C84_separator_refuted: the times ignore a trailing separator after a file name."
  },
  {
   "property": "C85",
   "status": "partial",
   "theorems": [
    "C85_mkdir_effect",
    "C85_mkdir_ok",
    "C85_mkdir_exists",
    "C85_all_or_nothing_refuted",
    "C85_mkdir_done_partial"
   ],
   "note": "Partial: Linux, absolute paths without '..' given by their names; for success the null device must not be among the names. C85_mkdir_done_partial: root's call succeeds where the path leaves the tree in a directory (unlimited file system, no link before the first missing name); for other users success is not stated. C85_all_or_nothing_refuted: unlike os.makedirs a failing call with parents may leave directories behind."
  },
  {
   "property": "C86",
   "status": "partial",
   "theorems": [
    "C86_copyfileobj_partial",
    "C86_opened",
    "C86_middle_refuted",
    "C86_files"
   ],
   "note": "Partial: not in append mode, both handles have the current bytes of their files before them (directly after opening, after os.write, or after reading: C79_opened, C79_wrote, C79_read), and the destination stands at the end of its bytes or was not moved or flushed since it was opened (C86_opened); the loop of CPython is given a number of rounds larger than the number of bytes. For two files opened for reading and writing (rb, wb) it is complete (C86_files). After a seek into the middle of a file it is refuted: the rest of the file is cut off (C86_middle_refuted)."
  }
 ]
}