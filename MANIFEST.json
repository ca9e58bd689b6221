{
 "claims": [
  {
   "property": "C01",
   "status": "partial",
   "theorems": [
    "C01_atari_write_then_read",
    "C01_valid_names_are_stored_unchanged",
    "atari_formatted_disk_consistent",
    "C01_duplicate_name_refuted"
   ],
   "note": "Proved for every consistent image (sector size 128..256, any size; it may hold MyDOS files, in sectors below 1024), every storable Latin-1 name not yet present, every non-empty byte string. False when the name is already on the disk (refuted)."
  },
  {
   "property": "C02",
   "status": "proved",
   "theorems": [
    "C02_atari_write_keeps_other_files"
   ],
   "note": "For every consistent image and legal write."
  },
  {
   "property": "C03",
   "status": "partial",
   "theorems": [
    "C03_atari_delete_removes_only_that_file",
    "C03_atari_delete_unlisted_is_harmless",
    "C03_unlisted_name_not_found_refuted"
   ],
   "note": "Deleting a listed file is proved in full. An unlisted name is not always refused with FileNotFound (refuted); on tidy disks such a delete is proved harmless."
  },
  {
   "property": "C04",
   "status": "partial",
   "theorems": [
    "C04_atari_sessions_are_maps",
    "C04_atari_sessions_are_maps_any_shred",
    "C04_atari_step_results",
    "C04_mydos_name_deleted_twice_refuted"
   ],
   "note": "All sequences of legal operations; legal means storable unused name, non-empty data, fewer than 64 files. With deletes of listed names only, it covers disks with MyDOS files; deleting a deleted MyDOS file again can free the sectors of another file (refuted)."
  },
  {
   "property": "C05",
   "status": "partial",
   "theorems": [
    "C05_atari_refused_write_changes_nothing_partial",
    "C05_atari_unencodable_name",
    "C05_empty_file_refuted"
   ],
   "note": "Proved for every legal write and for unencodable names. False for empty data (refuted)."
  },
  {
   "property": "C06",
   "status": "proved",
   "theorems": [
    "C06_atari_write_takes_exactly_the_sectors_needed",
    "C06_atari_write_succeeds_iff_space",
    "C06_atari_delete_returns_exactly_its_sectors"
   ],
   "note": "Free map of sectors below 720, which is all the code uses."
  },
  {
   "property": "C07",
   "status": "proved",
   "theorems": [
    "C07_atari_shred_wipes_exactly_the_free_space",
    "C07_dos33_shred_wipes_exactly_the_free_space"
   ],
   "note": "Atari and DOS 3.3. On Atari images of 1280 or more sectors the call ends with IndexError after having done exactly this."
  },
  {
   "property": "C08",
   "status": "proved",
   "theorems": [
    "C08_atari_write_touches_only_what_it_must",
    "C08_atari_delete_touches_only_the_system_sectors"
   ],
   "note": ""
  },
  {
   "property": "C09",
   "status": "partial",
   "theorems": [
    "C09_full_directory_refuted"
   ],
   "note": "The property is false of the code: the 65th file is written over sector 369."
  },
  {
   "property": "C10",
   "status": "partial",
   "theorems": [
    "C10_atari_reading_terminates_partial",
    "C10_atari_every_listed_file_reads",
    "C10_mydos_loop_refuted",
    "C10_mydos_read_ends_or_never_does",
    "C10_dos33_listed_files_read_partial",
    "C10_dos33_read_ends_or_never_does",
    "C10_dos33_catalog_ends_or_never_does",
    "C10_dos33_cyclic_list_refuted",
    "C10_dos33_cyclic_catalog_refuted",
    "C10_sparta_ends_or_never_does",
    "C10_sparta_refuted"
   ],
   "note": "Proved for Atari DOS 2 entries of any image. False for MyDOS entries, for DOS 3.3 sector lists and catalogs and for SpartaDOS sector maps with a cycle (refuted). For DOS 3.3 and SpartaDOS it is proved that a read either ends within a bound given by the image size or never ends."
  },
  {
   "property": "C100",
   "status": "partial",
   "theorems": [
    "C100_table",
    "C100_empty_zip_refuted",
    "C100_size_refuted"
   ],
   "note": "Proved for files that do not have the size of a disk (92160, 133120, 143360, 183936 or 184320 bytes) and, if they have the structure of a zip file, have a member. A file of such a size is taken for a disk, whatever else it is (refuted with an executable; DOS 3.3 sizes are C42 and C69), and a zip file without members ends in a ValueError (refuted). A file of no byte or of a single one counts as an executable without segments."
  },
  {
   "property": "C101",
   "status": "partial",
   "theorems": [
    "C101_one_owner",
    "C101_none_lost",
    "C101_emptied",
    "C101_balance",
    "C101_formatted",
    "C101_undone",
    "C101_fit",
    "C101_order",
    "C101_dos33_partial",
    "C101_dos33_one_owner",
    "C101_dos33_refused_loss",
    "C101_dos33_fit",
    "C101_dos33_order",
    "C101_dos33_refused_write_refuted"
   ],
   "note": "Proved for Atari DOS with refused writes included. On DOS 3.3 a refused write can lose sectors: exactly which and how many is proved, and the loss is exhibited; sessions without refused writes lose none. At most 64 files on an Atari disk (C09). Undoing a write on DOS 3.3 is C52; there files fit together if in addition the catalog has an entry for each."
  },
  {
   "property": "C11",
   "status": "partial",
   "theorems": [
    "C11_sectors_inside",
    "C11_sectors_disjoint_partial",
    "C11_sectors_cover_partial",
    "C11_invalid_sectors_refused",
    "C11_boot_sectors_overlap_refuted"
   ],
   "note": "Proved except for the three boot sectors of the 183936-byte layout, which overlap (refuted)."
  },
  {
   "property": "C12",
   "status": "proved",
   "theorems": [
    "C12_atr_header_round_trip",
    "C12_add_atr_header_then_open"
   ],
   "note": ""
  },
  {
   "property": "C13",
   "status": "partial",
   "theorems": [
    "C13_atari_dirent_reencode_partial",
    "C13_flag_bit_lost_refuted",
    "C13_nul_name_lost_refuted",
    "C13_dos33_entry_reencode_partial",
    "C13_dos33_deleted_entry_reencode_partial",
    "C13_dos33_lock_lost_refuted",
    "C13_dos33_locked_text_lost_refuted"
   ],
   "note": "Atari entries: proved unless flag bit 3 is set or a NUL ends a trimmed name; false there (refuted). DOS 3.3 entries: everything but the lock state survives; the lock state is lost (refuted)."
  },
  {
   "property": "C14",
   "status": "proved",
   "theorems": [
    "C14_atari_bitmap_decode",
    "C14_atari_bitmap_reencode",
    "C14_dos33_bitmap_decode",
    "C14_dos33_bitmap_reencode"
   ],
   "note": "Atari and DOS 3.3."
  },
  {
   "property": "C15",
   "status": "partial",
   "theorems": [
    "C15_empty_file_reads_whole_image",
    "C15_empty_file_refuted"
   ],
   "note": "The property is false of the code: such a file reads as the whole image."
  },
  {
   "property": "C16",
   "status": "proved",
   "theorems": [
    "C16_dos33_write_then_read",
    "C16_padding",
    "C16_names_are_stored_unchanged"
   ],
   "note": "Every consistent DOS 3.3 image, every non-empty byte string, every storable unused name and every listed file type."
  },
  {
   "property": "C17",
   "status": "partial",
   "theorems": [
    "C17_dos33_write_keeps_other_files_partial",
    "C17_dos33_lock_lost_refuted",
    "C17_dos33_every_write_unlocks_all"
   ],
   "note": "Names, types and contents are kept. The lock state is not (refuted): every write unlocks all files."
  },
  {
   "property": "C18",
   "status": "partial",
   "theorems": [
    "C18_dos33_delete_removes_only_that_file",
    "C18_dos33_unknown_name_refused_partial",
    "C18_dos33_double_delete_refuted",
    "C18_dos33_double_delete_harmless",
    "C18_dos33_delete_again",
    "C18_dos33_double_delete_frees_used_sectors_refuted"
   ],
   "note": "Deleting a listed file is proved in full. A name that was deleted before is not refused (refuted) and deleting it again may free sectors now used by another file (refuted); it is harmless as long as no file has got those sectors, so any names can be deleted in any order and as often as one likes while nothing is written."
  },
  {
   "property": "C19",
   "status": "proved",
   "theorems": [
    "C19_dos33_session_is_a_map",
    "C19_dos33_step_results"
   ],
   "note": "All sequences of legal operations."
  },
  {
   "property": "C20",
   "status": "partial",
   "theorems": [
    "C20_dos33_refused_write_partial",
    "C20_dos33_refused_write_leaks_refuted"
   ],
   "note": "Refusals before the first allocation change nothing. A later refusal leaks sectors (refuted)."
  },
  {
   "property": "C21",
   "status": "partial",
   "theorems": [
    "C21_dos33_types_listed_partial",
    "C21_dos33_text_file_vanishes_refuted",
    "C21_dos33_text_files_always_vanish"
   ],
   "note": "Proved for every type but T, which the code hides (refuted, and proved to happen always)."
  },
  {
   "property": "C22",
   "status": "partial",
   "theorems": [
    "C22_dos33_catalog_usable_partial",
    "C22_dos33_last_catalog_sector_refuted"
   ],
   "note": "Proved for all catalog sectors but the last, which the code never fills (refuted)."
  },
  {
   "property": "C23",
   "status": "partial",
   "theorems": [
    "C23_xex_round_trip_partial",
    "C23_run_address_partial",
    "C23_accepted_iff",
    "C23_last_address_refuted",
    "C23_empty_segment_refuted"
   ],
   "note": "Proved for every list of non-empty segments at addresses below 65535. A segment at 65535 is misread as a marker (refuted)."
  },
  {
   "property": "C24",
   "status": "partial",
   "theorems": [
    "C24_parser_total",
    "C24_parser_accepts_exactly_the_grammar",
    "C24_segments_are_disjoint_pieces_partial",
    "C24_truncated_position_refuted",
    "C24_short_header_position_refuted"
   ],
   "note": "Totality and an exact grammar are proved for every byte string. Complete segments are exact, ordered, disjoint pieces. The truncated piece at the end is reported at a wrong position (refuted)."
  },
  {
   "property": "C25",
   "status": "partial",
   "theorems": [
    "C25_bsave_loads_the_segments_partial",
    "C25_bsave_jumps_to_run_address_partial",
    "C25_run_address_outside_is_refused",
    "C25_memory_is_last_writer",
    "C25_bsave_round_trip",
    "C25_save_segment_round_trip",
    "C25_whole_memory_refuted"
   ],
   "note": "Proved when the file is shorter than 64K and, with a run address, when three bytes fit before the first segment. A file holding all 65536 bytes says its length is 0 (refuted)."
  },
  {
   "property": "C26",
   "status": "partial",
   "theorems": [
    "C26_kboot_file_is_the_executable_partial",
    "C26_create_boot_image_partial",
    "C26_large_executable_is_refused",
    "C26_large_executable_refuted"
   ],
   "note": "Proved for executables of 1..65535 bytes. Larger ones give an image that is always refused when opened."
  },
  {
   "property": "C27",
   "status": "partial",
   "theorems": [
    "C27_boot_image_runs_first_segment_partial",
    "C27_run_address_ignored_refuted"
   ],
   "note": "The property is false of the code: run_addr is ignored. Proved instead that the first segment is run."
  },
  {
   "property": "C28",
   "status": "partial",
   "theorems": [
    "C28_windows",
    "C28_negative_partial",
    "C28_negative_refuted",
    "C28_reverse_refuted"
   ],
   "note": "Proved for every chain of slices and selections with indexes that are not negative. A negative index in an array counts from the end of the whole data or of a selection, but shows a byte in front of the window if a part of the data is indexed (refuted). The reverse lookup is proved when no position is shown twice; otherwise it gives the later index (refuted)."
  },
  {
   "property": "C29",
   "status": "proved",
   "theorems": [
    "C29_edit_indexes",
    "C29_edit_index",
    "C29_edit_slice",
    "C29_edit_seen_by_views",
    "C29_last_write",
    "C29_copies_independent",
    "C29_edit_indexes_any",
    "C29_edit_index_any",
    "C29_edit_slice_any",
    "C29_bytes_stay"
   ],
   "note": ""
  },
  {
   "property": "C30",
   "status": "partial",
   "theorems": [
    "C30_ranges_exact",
    "C30_bits",
    "C30_set_exact",
    "C30_clear_exact_partial",
    "C30_clear_all_partial",
    "C30_clear_data_refuted",
    "C30_clear_user_refuted"
   ],
   "note": "Finding and setting are proved. Clearing is proved for requests without data or user; data=True clears nothing and user=n clears all user bits (refuted)."
  },
  {
   "property": "C31",
   "status": "partial",
   "theorems": [
    "C31_find_next",
    "C31_find_previous_partial",
    "C31_find_previous_shifted",
    "C31_find_previous_refuted"
   ],
   "note": "find_next is proved. find_previous skips a range that starts exactly one byte before (refuted); proved otherwise."
  },
  {
   "property": "C32",
   "status": "proved",
   "theorems": [
    "C32_tiling",
    "C32_maximal"
   ],
   "note": "An empty segment gives None instead of a list. Comment positions must lie inside the data."
  },
  {
   "property": "C33",
   "status": "partial",
   "theorems": [
    "C33_rectangle",
    "C33_rect_to_range",
    "C33_corner_order_refuted"
   ],
   "note": "The selection is exactly the rectangle given by rect_of. That rectangle depends on the order of the corners (refuted)."
  },
  {
   "property": "C34",
   "status": "proved",
   "theorems": [
    "C34_comment_map",
    "C34_restore"
   ],
   "note": ""
  },
  {
   "property": "C35",
   "status": "partial",
   "theorems": [
    "C35_session",
    "C35_user_data_refuted"
   ],
   "note": "Comments and the comment and user style bits are proved to come back. User data is not saved (refuted)."
  },
  {
   "property": "C36",
   "status": "partial",
   "theorems": [
    "C36_rebuilt_partial",
    "C36_empty_refuted"
   ],
   "note": "False for an empty index selection, which comes back as the whole data (refuted)."
  },
  {
   "property": "C37",
   "status": "partial",
   "theorems": [
    "C37_interleave",
    "C37_each_byte_once",
    "C37_indexed_refuted"
   ],
   "note": "Proved for every list of plain windows on one base. Segments made by index selection raise UnboundLocalError (refuted)."
  },
  {
   "property": "C38",
   "status": "proved",
   "theorems": [
    "C38_with_header",
    "C38_without_header",
    "C38_bank_addresses"
   ],
   "note": "For all 68 known types. The address of the main bank of type 59 is 0 in the table of the code (the entry has one field too few); addresses are compared with that table."
  },
  {
   "property": "C39",
   "status": "partial",
   "theorems": [
    "C39_add_atari_partial",
    "C39_add_dos33_partial",
    "C39_reported_is_saved_partial",
    "C39_dry_run",
    "C39_only_the_image",
    "C39_last_skipped_refuted",
    "C39_long_name_refuted"
   ],
   "note": "Proved when the last file is copied and names are stored unchanged. If the last file is skipped nothing is saved, and a name longer than the directory allows can hide an existing file (both refuted)."
  },
  {
   "property": "C40",
   "status": "proved",
   "theorems": [
    "C40_extract_atari",
    "C40_extract_dos33",
    "C40_one_file",
    "C40_never_clobbers",
    "C40_text"
   ],
   "note": "For both file systems. C40_never_clobbers holds for any image and also when the command fails."
  },
  {
   "property": "C41",
   "status": "partial",
   "theorems": [
    "C41_read_partial",
    "C41_whatever_is_read",
    "C41_full_map_refuted",
    "C41_length_refuted"
   ],
   "note": "Proved for files of 1 to 8388607 bytes whose map has an unused entry. A map without an unused entry raises IndexError, and files of 0 or of 8388608 and more bytes read as the whole disk (refuted). C41_whatever_is_read is about every image, consistent or not."
  },
  {
   "property": "C42",
   "status": "partial",
   "theorems": [
    "C42_flat_parsers",
    "C42_disk_parsers_partial",
    "C42_atari_partial",
    "C42_open_atari_partial",
    "C42_dos33_partial",
    "C42_detection_partial",
    "C42_causes_partial",
    "C42_any_contents_partial",
    "C42_dos33_contents_partial",
    "C42_consistent_atari",
    "C42_short_disk_refuted",
    "C42_sector_size_refuted",
    "C42_sparta_refuted",
    "C42_apple_refuted",
    "C42_count_refuted",
    "C42_sparta_kinds_refuted",
    "C42_apple_kinds_refuted"
   ],
   "note": "False in general: an ATR header without a disk (IndexError), sector size 0 (ZeroDivisionError), a SpartaDOS boot sector without a directory (TypeError), a DOS 3.3 disk with a small VTOC (NameError) and a file in the last sector with a large byte count (IndexError) are refuted. C42_causes_partial lists every cause of another exception for all byte strings with even sectors of 128 bytes and more; without these causes detection is proved to succeed or refuse whatever the disk contains. For SpartaDOS boot records the causes are listed per exception: no directory, an empty, circular or unended map, a directory that is cut, and entries whose map is missing, circular or unended. For DOS 3.3 disks they are listed for every number of sectors in the VTOC: too small a disk, a listed file without sectors or with one outside the disk (NameError), more sectors than the data has (IndexError), and circles; C42_dos33_contents_partial says that nothing else goes wrong."
  },
  {
   "property": "C43",
   "status": "partial",
   "theorems": [
    "C43_loads_exactly",
    "C43_boot_partial",
    "C43_shared_page_refuted",
    "C43_quiet_screen_refuted",
    "C43_high_page_refuted"
   ],
   "note": "Proved for segments on pages 4-7 and 9-$BF that share no page and do not start at $2001 or $4001. Segments sharing a page, a segment at $2001 and a segment at $D000 or above are not read back (refuted). C43_loads_exactly says what is read in every case, shared pages included."
  },
  {
   "property": "C44",
   "status": "proved",
   "theorems": [
    "C44_every_notation",
    "C44_every_number",
    "C44_nothing_else"
   ],
   "note": "The characters also accepted by int() of Python are listed by C44_nothing_else."
  },
  {
   "property": "C45",
   "status": "proved",
   "theorems": [
    "C45_first_accepting",
    "C45_first_wins",
    "C45_unrecognised",
    "C45_containers",
    "C45_compressed_same",
    "C45_for_system"
   ],
   "note": "Proved for every answer of gzip, bz2, lzma, zipfile and SHA-1, which are parameters of the model. Data whose SHA-1 is in the signature table is first tried with the parsers of that entry, as documented in parsers.py."
  },
  {
   "property": "C46",
   "status": "partial",
   "theorems": [
    "C46_label_partial",
    "C46_double_density_refuted"
   ],
   "note": "Proved for views that start at sector 1 or whose sectors all have the same size. False for the VTOC and directory views of double density images (refuted)."
  },
  {
   "property": "C47",
   "status": "partial",
   "theorems": [
    "C47_atari_all_sector_sizes_partial",
    "C47_wide_sectors_refuted"
   ],
   "note": "Proved for all multiples of 16 in 128..256; false for larger sectors (refuted)."
  },
  {
   "property": "C48",
   "status": "partial",
   "theorems": [
    "C48_reported_free_count_is_stale",
    "C48_reported_free_count_refuted"
   ],
   "note": "The property is false of the code: the reported count never changes."
  },
  {
   "property": "C49",
   "status": "proved",
   "theorems": [
    "C49_cross_linked_file_is_reported",
    "C49_data_comes_from_the_files_own_sectors"
   ],
   "note": "Every byte string that opens, every DOS 2 entry."
  },
  {
   "property": "C50",
   "status": "proved",
   "theorems": [
    "C50_opened_entries_are_possible",
    "C50_impossible_entry_is_refused",
    "C50_dos33_opened_entries_are_possible",
    "C50_dos33_impossible_entry_is_refused"
   ],
   "note": "The second theorem is for sector sizes 128..256. The DOS 3.3 theorems are for every byte string."
  },
  {
   "property": "C51",
   "status": "proved",
   "theorems": [
    "C51_reported_totals"
   ],
   "note": "Every byte string that opens. The sum is taken modulo 65536."
  },
  {
   "property": "C52",
   "status": "proved",
   "theorems": [
    "C52_dos33_write_takes_the_lowest_free_sectors",
    "C52_dos33_delete_returns_its_sectors",
    "C52_dos33_write_then_delete_restores_the_free_map"
   ],
   "note": ""
  },
  {
   "property": "C53",
   "status": "proved",
   "theorems": [
    "C53_dos33_write_touches_only_its_sectors",
    "C53_dos33_delete_touches_only_vtoc_and_catalog"
   ],
   "note": ""
  },
  {
   "property": "C54",
   "status": "proved",
   "theorems": [
    "C54_fixup"
   ],
   "note": ""
  },
  {
   "property": "C55",
   "status": "partial",
   "theorems": [
    "C55_compare_partial",
    "C55_indexed_refuted"
   ],
   "note": "Proved for plain windows. On a segment made by index selection nothing is recorded in the shared styles (refuted)."
  },
  {
   "property": "C56",
   "status": "proved",
   "theorems": [
    "C56_user_map"
   ],
   "note": ""
  },
  {
   "property": "C57",
   "status": "proved",
   "theorems": [
    "C57_sorted_user_data"
   ],
   "note": ""
  },
  {
   "property": "C58",
   "status": "proved",
   "theorems": [
    "C58_comments_in_range"
   ],
   "note": ""
  },
  {
   "property": "C59",
   "status": "partial",
   "theorems": [
    "C59_stays_in_dir_partial",
    "C59_escapes_dir_refuted"
   ],
   "note": "Proved for names without a slash. A name that starts with a slash is written outside the directory (refuted)."
  },
  {
   "property": "C60",
   "status": "partial",
   "theorems": [
    "C60_delete_atari",
    "C60_delete_dos33",
    "C60_locked_refuted"
   ],
   "note": "Everything but write protection is proved. Locked files are deleted without --force (refuted)."
  },
  {
   "property": "C61",
   "status": "partial",
   "theorems": [
    "C61_create",
    "C61_full_names",
    "C61_documented_names_refuted"
   ],
   "note": "Proved for every set of templates. The documented names dos2sd, dos2ed and dos33 are refused as ambiguous (refuted)."
  },
  {
   "property": "C62",
   "status": "partial",
   "theorems": [
    "C62_boot_partial",
    "C62_force_and_dry_run_refuted"
   ],
   "note": "--force and --dry-run are ignored (refuted)."
  },
  {
   "property": "C63",
   "status": "partial",
   "theorems": [
    "C63_whole_file",
    "C63_part_of_file",
    "C63_bad_bounds_refuted"
   ],
   "note": "Bounds that are not decimal numbers give the whole file (refuted)."
  },
  {
   "property": "C64",
   "status": "proved",
   "theorems": [
    "C64_recognised"
   ],
   "note": "The four unused header bytes may have any value."
  },
  {
   "property": "C65",
   "status": "partial",
   "theorems": [
    "C65_rom_partial",
    "C65_empty_refuted"
   ],
   "note": "Proved for data that is not empty. Empty data is accepted (refuted)."
  },
  {
   "property": "C66",
   "status": "partial",
   "theorems": [
    "C66_directory",
    "C66_deleted_shadows_refuted"
   ],
   "note": "The listing is proved. A deleted entry that comes earlier and has the same name is found instead of the file (refuted)."
  },
  {
   "property": "C67",
   "status": "partial",
   "theorems": [
    "C67_add_delete_refused",
    "C67_bytes_stay",
    "C67_shred_refuted"
   ],
   "note": "Adding and deleting are proved harmless (TypeError). Shredding reads the bitmap ten bytes too late and wipes sectors of files (refuted)."
  },
  {
   "property": "C68",
   "status": "proved",
   "theorems": [
    "C68_fits",
    "C68_eight_pieces_fit"
   ],
   "note": "Otherwise NameError or ValueError is raised."
  },
  {
   "property": "C69",
   "status": "partial",
   "theorems": [
    "C69_detected_after_write_partial",
    "C69_detected_after_delete_partial",
    "C69_detected_after_shred_partial",
    "C69_atari_session_partial",
    "C69_formatted_detected",
    "C69_dos33_detected",
    "C69_dos33_session"
   ],
   "note": "Every session on Atari DOS 2 and DOS 3.3 disks. Assumes that the bytes are no compressed or zip file and have no known signature, and that the first sector is not a SpartaDOS boot record (which a session does not change). A name that only a deleted DOS 3.3 entry carries may be deleted again while no file has got its sectors; otherwise the disk does not stay consistent (C18)."
  },
  {
   "property": "C70",
   "status": "partial",
   "theorems": [
    "C70_known_rom_partial",
    "C70_known_5200_partial",
    "C70_starpath_refuted"
   ],
   "note": "Proved for 2600 and Vectrex images whose size is a power of two and for 5200 images of 4 KB and more without a cartridge header. Other sizes are refused even in relaxed mode: no Starpath image is ever recognised (refuted). SHA-1 is a parameter of the model."
  },
  {
   "property": "C71",
   "status": "partial",
   "theorems": [
    "C71_resize",
    "C71_children",
    "C71_refusals",
    "C71_shrink_refuted",
    "C71_again_refuted"
   ],
   "note": "Proved for one resize, and for segments when the container grows. Segments can not be given a smaller container (AttributeError) and a container can be resized only once (ValueError), both refuted."
  },
  {
   "property": "C72",
   "status": "partial",
   "theorems": [
    "C72_set",
    "C72_remove",
    "C72_get",
    "C72_first",
    "C72_get_refuted"
   ],
   "note": "Setting, removing and the first comment are proved. Reading at indexes goes by the style bit, which setting at indexes does not set, so the texts are not reported (refuted)."
  },
  {
   "property": "C73",
   "status": "partial",
   "theorems": [
    "C73_assembled_atari_partial",
    "C73_assembled_dos33_partial",
    "C73_assembled_atari_bsave",
    "C73_assembled_dos33_xex",
    "C73_reassembling_copies",
    "C73_address_zero_refuted",
    "C73_padded_bsave_refuted",
    "C73_unreadable_address_refuted"
   ],
   "note": "Proved with the limits of C23 and C25, also if the extension of the output asks for the other kind of executable. Segments of object files at address 0 are dropped, a BSAVE file that was stored on a DOS 3.3 disk is no object file any more, and an unreadable run address is taken for none (all refuted)."
  },
  {
   "property": "C74",
   "status": "proved",
   "theorems": [
    "C74_one_run_atari",
    "C74_session_atari",
    "C74_add_then_extract_atari",
    "C74_one_run_dos33",
    "C74_session_dos33",
    "C74_add_then_extract_dos33"
   ],
   "note": "Under the usual conditions (stored names, non-empty files, less than 64 files on Atari disks, no boot record of another system)."
  },
  {
   "property": "C75",
   "status": "partial",
   "theorems": [
    "C75_dry_run_partial",
    "C75_reading_changes_nothing",
    "C75_only_the_image",
    "C75_extract_overwrites_nothing",
    "C75_dry_boot_refuted",
    "C75_extract_over_the_image_refuted",
    "C75_local_delete_refuted"
   ],
   "note": "boot ignores --dry-run; extract --force overwrites the image if a file on it has the name of the image file; delete on the current directory reports a removal that does not happen (all refuted)."
  },
  {
   "property": "C76",
   "status": "proved",
   "theorems": [
    "C76_crc_atari",
    "C76_crc_dos33"
   ],
   "note": "CRC-32 is a parameter of the model."
  },
  {
   "property": "C77",
   "status": "partial",
   "theorems": [
    "C77_boot_atr_partial",
    "C77_boot_dsk_partial",
    "C77_no_start_address_refuted",
    "C77_atari_start_ignored_refuted"
   ],
   "note": "Proved for executables of less than 64K, and for Apple disks when a start address is known. Without one TypeError is raised; on Atari disks the start address is ignored (both refuted)."
  },
  {
   "property": "C78",
   "status": "proved",
   "theorems": [
    "C78_xex_recognised",
    "C78_bsave_recognised",
    "C78_boot_image_recognised"
   ],
   "note": "Assumes that the bytes are not those of another format: no compressed or zip file, no known signature, not the size of a bare disk image, no SpartaDOS boot record, and for BSAVE files not loaded at $0296 (an ATR header), at $FFFF (an XEX header) or such that it starts with the letters CART."
  },
  {
   "property": "C79",
   "status": "proved",
   "theorems": [
    "C79_atari_templates",
    "C79_dos33_templates",
    "C79_create_atari",
    "C79_create_dos33",
    "C79_only_these"
   ],
   "note": "The templates are transcribed byte for byte. Assumes of the bytes of an image only that the parameters of the model (decompression, zip, checksums) do not take it for something else."
  },
  {
   "property": "C80",
   "status": "partial",
   "theorems": [
    "C80_keeps_files",
    "C80_add_copies",
    "C80_add_forced",
    "C80_add_forced_chain",
    "C80_forced_lost_refuted",
    "C80_dry_run",
    "C80_assembled_xex",
    "C80_assembled_bsave",
    "C80_assembled_no_extension_refuted",
    "C80_add_without_type_refuted",
    "C80_extract_refuted",
    "C75_local_delete_refuted"
   ],
   "note": "add works only with --filetype (otherwise AttributeError), extract of an existing file raises AttributeError, delete removes nothing (all refuted). With --force the last file of a name wins unless one of the files given is itself overwritten by another: then the file is lost (refuted; C80_add_forced_chain says what ends up where in every case). Assembling is proved for the extensions xex, bin and bsave, with the limits of C23 and C25; for any other output name it ends in AttributeError (refuted)."
  },
  {
   "property": "C81",
   "status": "partial",
   "theorems": [
    "C81_boots_partial",
    "C81_made_disk_boots_partial",
    "C81_screen_order_refuted"
   ],
   "note": "Everything is proved but the choice of screen: if a program shows the first hi-res screen for the first time after the second one, the computer goes on showing the second one (refuted); proved otherwise. The 6502, the drive and three ROM routines are specified in CpuModel.v and AppleSpec.v. For segments on pages 4-7 and 9-$BF."
  },
  {
   "property": "C82",
   "status": "partial",
   "theorems": [
    "C82_boots_partial",
    "C82_made_disk_boots_partial",
    "C82_executable_boots_partial",
    "C82_executable_routines_partial",
    "C82_boots_routines_partial",
    "C82_made_disk_routines_partial",
    "C82_start_lost_refuted",
    "C82_large_refuted",
    "C82_over_loader_refuted"
   ],
   "note": "Start addresses are ignored (refuted): the disk starts at the first segment. 65536 bytes and more are put on the disk, but only the excess over 65536 is loaded (refuted). Proved for segments in $0400-$06FF and $0880-$BFFF; initialisation routines ($02E2) are called in order, proved for routines that return and leave the loader and its stack alone; a segment that overwrites the loader can keep the program from being started (refuted); segments over the operating system's variables are not covered. The 6502 and the operating system's disk routine are specified in CpuModel.v and KbSpec.v; interrupts are not modelled."
  },
  {
   "property": "C83",
   "status": "proved",
   "theorems": [
    "C83_atari_to_atari",
    "C83_dos33_to_atari",
    "C83_atari_to_dos33",
    "C83_dos33_to_dos33"
   ],
   "note": "For names that both disks can store and that have no slash; without the options that convert text or lower names. The type of a file on a DOS 3.3 disk is not kept: it is the one given when adding (or binary)."
  },
  {
   "property": "C84",
   "status": "partial",
   "theorems": [
    "C84_atari_edit_partial",
    "C84_atari_segments_stay_valid",
    "C84_atari_session_partial",
    "C84_empty_file_refuted",
    "C84_dos33_edit",
    "C84_dos33_segments_stay_valid",
    "C84_dos33_session"
   ],
   "note": "Proved in full for DOS 3.3. On Atari disks files without bytes are excluded: the segment of such a file is the whole image (refuted)."
  },
  {
   "property": "C85",
   "status": "partial",
   "theorems": [
    "C85_atari_list",
    "C85_dos33_list",
    "C85_dos33_numbered",
    "C85_sparta_list",
    "C85_selected",
    "C85_list_ends",
    "C85_sparta_ends",
    "C85_numbers",
    "C85_crc_partial",
    "C85_crc_refuted"
   ],
   "note": "Listings are proved. The text of crc is proved for names without line breaks; a name on a DOS 3.3 disk can have one, and then one file can look like two (refuted). Of unknown DOS 3.3 file types only the fact is shown. CRC-32 is a parameter of the model. Listings under --verbose are in C98."
  },
  {
   "property": "C86",
   "status": "partial",
   "theorems": [
    "C86_atari_vtoc_partial",
    "C86_dos33_vtoc",
    "C86_large_disks_refuted",
    "C86_sparta_partial",
    "C86_sparta_refuted"
   ],
   "note": "Proved in full for DOS 3.3. On Atari disks only the first 720 sectors are shown: of larger disks the rest is missing, also in the number (refuted). On SpartaDOS disks the digit of a sector is that of the sector 80 further on, so sectors in use are shown as free (refuted; what is shown is proved for all disks)."
  },
  {
   "property": "C87",
   "status": "partial",
   "theorems": [
    "C87_runs_partial",
    "C87_program",
    "C87_default",
    "C87_repeated_refuted",
    "C87_help_partial",
    "C87_help_refuted",
    "C87_every_line_partial",
    "C87_add_then_extract",
    "C87_no_effect_refuted"
   ],
   "note": "Of several -s, -d or -b options only the first is used, an image name with --help and nothing else ends in IndexError, and the options --ext of extract, --segments of list and --force of delete have no effect (all refuted). Everything else is proved. argparse is modelled as far as the program uses it."
  },
  {
   "property": "C88",
   "status": "partial",
   "theorems": [
    "C88_atari_list_partial",
    "C88_atari_apart",
    "C88_boot_sectors_refuted",
    "C88_dos33_list",
    "C88_dos33_apart",
    "C88_boot_list",
    "C88_unidentified_list",
    "C88_kboot_list",
    "C88_sparta_list_partial",
    "C88_sparta_boot_refuted",
    "C88_header_and_sectors",
    "C88_text",
    "C88_comment_mark_refuted",
    "C88_xex_list",
    "C88_xex_shows",
    "C88_bin_list",
    "C88_cart_list",
    "C88_cart_tiles",
    "C88_rom_list",
    "C88_mame_list",
    "C88_always_listed",
    "C88_trace_refuted"
   ],
   "note": "Atari DOS: boot sectors are looked for in the VTOC instead of the first sector, so a DOS 2 disk never has them listed (refuted); everything else is proved. SpartaDOS: the header of the boot sectors is listed twice and the boot sectors are not (refuted); the rest is proved for sectors of at least 43 bytes and a bitmap behind the boot sectors. Comments made while listing are not marked as comments in the styles (refuted). Unidentified disks of more than 128 bytes. Segments inside executables on disks are never listed. Executables, cartridges, ROMs and MAME files are proved; but a file refused as an executable keeps the marks made for it (refuted)."
  },
  {
   "property": "C89",
   "status": "partial",
   "theorems": [
    "C89_saved_list_partial",
    "C89_same_data_partial",
    "C89_annotations_partial",
    "C89_again_refuted",
    "C89_raw_refuted",
    "C89_catalog_refuted",
    "C89_mame_refuted"
   ],
   "note": "Proved but for DOS 3.3 disks whose sector map says that there is no catalog: their empty catalog segment comes back as the whole disk (refuted). A parser can be restored only once, and the parser of raw data not at all (both refuted). Kinds, names and addresses are carried over by jsonpickle, which is not modelled. The segments of a MAME file come back on the zip file instead of its members (refuted)."
  },
  {
   "property": "C90",
   "status": "partial",
   "theorems": [
    "C90_segments_listed",
    "C90_executable_segments",
    "C90_objects_partial",
    "C90_object_bytes",
    "C90_cart_object",
    "C90_dos33_object_partial",
    "C90_dos33_binary_refuted",
    "C90_kboot_refuted",
    "C90_rom_refuted",
    "C90_mame_refuted"
   ],
   "note": "Listing is proved for every image. A DOS 3.3 disk with a program above address 4 cannot be an object file: the command ends in TypeError (refuted). The program on a KBoot disk is loaded, as one piece, to the number that is its position in the image; a ROM and the first member of a zip file are left out (all refuted). DOS 3.3 is proved for consistent disks. The list has some boot sectors twice, which are then contributed twice."
  },
  {
   "property": "C91",
   "status": "partial",
   "theorems": [
    "C91_address",
    "C91_not_shown",
    "C91_outside_refuted",
    "C91_label",
    "C91_labels_differ",
    "C91_subset",
    "C91_parallel_partial",
    "C91_parallel_refuted",
    "C91_add_segment"
   ],
   "note": "Proved but for two cases: an address outside the segment is not refused, but leads to other bytes (refuted), and the parallel data of a selection cannot be had (AttributeError, refuted)."
  },
  {
   "property": "C92",
   "status": "partial",
   "theorems": [
    "C92_search_partial",
    "C92_stale_refuted"
   ],
   "note": "Proved for sequences in which no byte of the segment is changed through another segment; after such a change the search still looks at the old bytes (refuted)."
  },
  {
   "property": "C93",
   "status": "partial",
   "theorems": [
    "C93_listing",
    "C93_ends",
    "C93_atari_flags",
    "C93_sparta_flags",
    "C93_sectors_read",
    "C93_dos33_meta",
    "C93_dos33_ends",
    "C93_dos33_list",
    "C93_next_partial",
    "C93_next_refuted"
   ],
   "note": "Proved but for the links: the link shown with a sector of a track/sector list is always 0, also if the list goes on in another sector (refuted; right for lists of one sector)."
  },
  {
   "property": "C94",
   "status": "partial",
   "theorems": [
    "C94_header_partial",
    "C94_refused_refuted",
    "C94_recognised_refuted",
    "C94_possible_refuted"
   ],
   "note": "The form of the result is proved. The header never gets a type, so the result is refused by every reader of cartridges (refuted for all data), and the kinds offered for a size are chosen by their type number instead of their size (refuted)."
  },
  {
   "property": "C95",
   "status": "partial",
   "theorems": [
    "C95_as_commands",
    "C95_compressed",
    "C95_disks",
    "C95_clean_partial",
    "C95_fails_refuted"
   ],
   "note": "Proved but for failing: data that make a parser fail make the loader fail too (refuted); it does not for data of the usual shapes."
  },
  {
   "property": "C96",
   "status": "partial",
   "theorems": [
    "C96_like_plain",
    "C96_unpacked_refuted"
   ],
   "note": "Proved but for the last part: a command that changes the image leaves the image itself, not compressed, in the file (refuted). The unpacking of gzip, bzip2 and lzma is a parameter of the model."
  },
  {
   "property": "C97",
   "status": "partial",
   "theorems": [
    "C97_recognised_partial",
    "C97_usual_sizes",
    "C97_list",
    "C97_crc",
    "C97_extract",
    "C97_one_file",
    "C97_kept",
    "C97_record_exact",
    "C97_others_refused",
    "C97_like_boot_disk",
    "C97_chance_refuted",
    "C97_deleted_refuted",
    "C97_reused_refuted"
   ],
   "note": "Proved for disks on which deleted files can be read as well and that do not look like a boot disk; no disk of 128- or 256-byte sectors looks like one unless its number of sectors is a multiple of 513 or 257 or above 40000, and a disk that does is taken for one (refuted with 1028 sectors). Deleted files are listed, and extracted with --all (refuted), and a disk on which the map of a deleted file was written over can make detection fail (refuted). Files of no bytes, and of 8 MB and more, are excluded (C41)."
  },
  {
   "property": "C98",
   "status": "proved",
   "theorems": [
    "C98_changes_nothing",
    "C98_lines",
    "C98_refused_lines",
    "C98_failed_lines",
    "C98_tells",
    "C98_kind_readable",
    "C98_list",
    "C98_atari_list",
    "C98_dos33_list",
    "C98_sparta_list"
   ],
   "note": "Data that are a known game by their checksum are recognised without a search, and then only the name of the file is printed before the listing. Messages of the logging module are not modelled."
  },
  {
   "property": "C99",
   "status": "proved",
   "theorems": [
    "C99_same_disk"
   ],
   "note": "A file that is read as the whole image (C15) is read as the whole of each image, with and without the header. The type found by the detection is not part of the claim."
  }
 ]
}