{"id": "C01", "title": "Atari DOS: what is written is what is read", "statement": "After image.write_file(name, type, data) returns on an Atari DOS 2 image, image.find_file(name) returns exactly the bytes of data.", "quantifier": "every consistent Atari DOS image (128- or 256-byte sectors, any contents), every valid 8.3 name, every non-empty byte string that fits, every free-sector layout", "why_tests_cant": "The result depends on the whole bitmap, on fragmentation, on the number of sectors and on the directory slot; a test can only try a few layouts and lengths.", "anchors": ["atrcopy/diskimages.py: DiskImageBase.write_file, build_sectors, write_sector_list, find_file, get_file", "atrcopy/utils.py: VTOC.assign_sector_numbers, reserve_space, get_next_free_sector", "atrcopy/ataridos.py: AtariDosWriteableSector, AtariDosDirent.read_sector, process_raw_sector, AtariDosDiskImage.get_file_segment"]}
{"id": "C02", "title": "Atari DOS: writing a file leaves every other file alone", "statement": "A successful write_file adds exactly one directory entry; every file that was listed before is still listed, in the same relative order, with the same name and exactly the same contents.", "quantifier": "every consistent image, every other file on it, every name and data", "why_tests_cant": "Cross-file corruption depends on sector allocation and on re-encoding of all directory entries; it has to hold for every pair of files and every layout.", "anchors": ["atrcopy/diskimages.py: DiskImageBase.write_file", "atrcopy/utils.py: Directory.calc_sectors, VTOC.get_next_free_sector", "atrcopy/ataridos.py: AtariDosDirent.encode_dirent, parse_raw_dirent"]}
{"id": "C03", "title": "Atari DOS: delete removes that file and nothing else", "statement": "After delete_file(name) returns, name is no longer listed (find_file raises FileNotFound when no duplicate exists) and every other file keeps its name and contents.", "quantifier": "every consistent image, every listed name", "why_tests_cant": "Needs every layout of the chain being freed against every other chain.", "anchors": ["atrcopy/diskimages.py: DiskImageBase.delete_file", "atrcopy/utils.py: Directory.remove_dirent, Directory.find_dirent, VTOC.free_sector_list", "atrcopy/ataridos.py: AtariDosDirent.get_sectors_in_vtoc, mark_deleted"]}
{"id": "C04", "title": "Atari DOS: any session behaves like a map from names to contents", "statement": "After any sequence of write_file, delete_file and shred calls, each of which may succeed or be refused with a documented error, find_file(n) returns, for every n, the data of the last successful write of n not followed by a successful delete, or the content n had at the start, or FileNotFound.", "quantifier": "every consistent starting image and every finite sequence of operations", "why_tests_cant": "Histories are unbounded; the interesting failures (stale bitmap, reused slots, chains crossing) need long interleavings.", "anchors": ["atrcopy/diskimages.py: DiskImageBase.write_file, delete_file, shred, find_file", "atrcopy/utils.py: Directory, VTOC"]}
{"id": "C05", "title": "Atari DOS: a refused write changes nothing", "statement": "If write_file raises one of the library's own errors (disk full, directory full), the image bytes are exactly what they were before the call.", "quantifier": "every consistent image, every name, every data", "why_tests_cant": "The failure point depends on the amount of free space and the size of data; rollback must be exact for all of them.", "anchors": ["atrcopy/diskimages.py: DiskImageBase.begin_transaction, rollback_transaction, write_file", "atrcopy/utils.py: VTOC.reserve_space"]}
{"id": "C06", "title": "Atari DOS: space accounting is exact", "statement": "A successful write of n bytes takes exactly ceil(n / payload) sectors from the free map, all of them free before; delete returns exactly the sectors of the file; a write succeeds if and only if enough free sectors exist.", "quantifier": "every consistent image, every data length, every file", "why_tests_cant": "Leaks and double allocation show only for particular lengths and bitmaps and accumulate over histories.", "anchors": ["atrcopy/utils.py: VTOC.reserve_space, get_next_free_sector, free_sector_list, assign_sector_numbers", "atrcopy/ataridos.py: AtariDosVTOC.parse_segments, calc_bitmap", "atrcopy/diskimages.py: build_sectors"]}
{"id": "C07", "title": "Shredding wipes the free space and only the free space", "statement": "shred(v) sets every byte of every sector the free map marks free to v and changes no other byte of the image; all files still read back the same.", "quantifier": "every image with a readable free map, every fill value", "why_tests_cant": "A single wrong sector position or boundary destroys data; must hold for all bitmaps and geometries.", "anchors": ["atrcopy/diskimages.py: DiskImageBase.shred", "atrcopy/utils.py: VTOC.iter_free_sectors", "atrcopy/diskimages.py: BaseHeader.iter_sectors"]}
{"id": "C08", "title": "Atari DOS: a write touches only what it must", "statement": "A successful write_file changes no byte of the image outside the newly allocated sectors, the VTOC sector and the directory sectors; the image length never changes.", "quantifier": "every consistent image, every write", "why_tests_cant": "A frame condition quantifies over every untouched byte.", "anchors": ["atrcopy/diskimages.py: write_sector_list, get_sector_slice", "atrcopy/ataridos.py: AtrHeader.get_pos"]}
{"id": "C09", "title": "A full directory is reported, not overrun", "statement": "When all directory slots of an Atari DOS disk are in use, write_file raises NoSpaceInDirectory and the image is unchanged.", "quantifier": "every image with a full directory", "why_tests_cant": "Needs a disk with the maximum number of files in every arrangement; boundary arithmetic on slots and sectors.", "anchors": ["atrcopy/utils.py: Directory.get_free_dirent, calc_sectors", "atrcopy/ataridos.py: AtariDosDirectory.set_sector_numbers"]}
{"id": "C10", "title": "Reading a file always terminates", "statement": "find_file / get_file on any directory entry of any image terminates, whatever the link bytes on the disk say (it returns data or raises an error).", "quantifier": "every image content, including hostile and cyclic sector chains, for Atari DOS, MyDOS, DOS 3.3 and SpartaDOS entries", "why_tests_cant": "Non-termination cannot be observed by a test, and the space of link structures is unbounded.", "anchors": ["atrcopy/ataridos.py: AtariDosDirent.read_sector, process_raw_sector, MydosDirent.process_raw_sector", "atrcopy/dos33.py: Dos33Dirent.get_track_sector_list, Dos33DiskImage.get_directory", "atrcopy/spartados.py: SpartaDosDiskImage.get_sector_map"]}
{"id": "C11", "title": "Sector addressing: sectors are disjoint and inside the image", "statement": "For every supported disk size, every valid sector number maps to a byte range inside the image, ranges of different sectors do not overlap, and together they cover the whole data area; invalid sector numbers are refused with ByteNotInFile166.", "quantifier": "every image size and ATR header accepted, every sector number", "why_tests_cant": "Tests address a handful of sectors; the claim is about all of them and about all pairs.", "anchors": ["atrcopy/ataridos.py: AtrHeader.check_size, get_pos", "atrcopy/diskimages.py: BaseHeader.get_pos, sector_is_valid", "atrcopy/dos33.py: Dos33Header.check_size"]}
{"id": "C12", "title": "ATR header round trip", "statement": "Encoding an ATR header and parsing it again gives back the same image size, sector size, crc, unused and flags fields, and add_atr_header(data) followed by opening yields the same data bytes after the 16-byte header.", "quantifier": "every header with in-range fields, every image size that is a multiple of 16 below 2^28", "why_tests_cant": "Multi-byte split of the paragraph count over two fields: boundary values are easily missed.", "anchors": ["atrcopy/ataridos.py: AtrHeader.__init__, encode, add_atr_header", "atrcopy/diskimages.py: BaseHeader.to_array"]}
{"id": "C13", "title": "Directory entries survive re-encoding", "statement": "Because every write or delete re-encodes the whole directory, parsing an entry and encoding it again must preserve everything a later parse sees: name, extension, flags, sector count and start sector.", "quantifier": "every 16-byte Atari directory entry and every 35-byte DOS 3.3 catalog entry", "why_tests_cant": "2^128 possible entries; padding, NUL stripping and masking interact.", "anchors": ["atrcopy/ataridos.py: AtariDosDirent.parse_raw_dirent, encode_dirent", "atrcopy/dos33.py: Dos33Dirent.parse_raw_dirent, encode_dirent"]}
{"id": "C14", "title": "Free-sector bitmaps survive decode and encode", "statement": "Decoding the VTOC bitmap and encoding it unchanged leaves the VTOC sector byte-for-byte the same, and sector n is reported free exactly when its documented bit is set (Atari: bit 7-(n mod 8) of byte 10 + n/8; DOS 3.3: bit s of the big-endian 16-bit word at 0x38+4t).", "quantifier": "every VTOC sector content, every sector number", "why_tests_cant": "2^720 bitmaps; bit order mistakes are symmetric and invisible to round-trip tests on all-ones maps.", "anchors": ["atrcopy/ataridos.py: AtariDosVTOC.parse_segments, calc_bitmap", "atrcopy/dos33.py: Dos33VTOC.parse_segments, calc_bitmap"]}
{"id": "C15", "title": "A file with no data reads as empty", "statement": "If the sectors of a file carry no data bytes, get_file returns an empty byte string.", "quantifier": "every image and every listed file whose chain has zero payload bytes", "why_tests_cant": "Has to hold for every chain shape.", "anchors": ["atrcopy/ataridos.py: AtariDosDiskImage.get_file_segment", "atrcopy/segments.py: EmptySegment, DefaultSegment.tobytes"]}
{"id": "C16", "title": "DOS 3.3: what is written is what is read", "statement": "After write_file(name, type, data) returns on a DOS 3.3 image, find_file(name) returns data followed only by zero padding up to the next multiple of 256 bytes.", "quantifier": "every consistent DOS 3.3 image, every name, type and non-empty data that fits", "why_tests_cant": "Depends on bitmap, multi-sector track/sector lists (more than 122 sectors), catalog position.", "anchors": ["atrcopy/dos33.py: Dos33Dirent.add_metadata_sectors, get_track_sector_list, read_sector, Dos33TSSector", "atrcopy/diskimages.py: DiskImageBase.write_file"]}
{"id": "C17", "title": "DOS 3.3: writing a file leaves every other file alone", "statement": "A successful write_file on a DOS 3.3 image keeps every previously listed file listed with the same name, file type, lock state and contents.", "quantifier": "every consistent DOS 3.3 image, every other file", "why_tests_cant": "All catalog entries are re-encoded on each write; must hold for each of them in every layout.", "anchors": ["atrcopy/dos33.py: Dos33Dirent.encode_dirent, parse_raw_dirent, Dos33Directory.set_sector_numbers", "atrcopy/utils.py: Directory.calc_sectors"]}
{"id": "C18", "title": "DOS 3.3: delete removes that file and nothing else", "statement": "After delete_file(name) returns on a DOS 3.3 image, name is not listed any more and every other file keeps its name and contents; a name that is not listed is refused with FileNotFound.", "quantifier": "every consistent image, every listed or unlisted name", "why_tests_cant": "Deleted entries stay in the catalog with their old sector lists; the interaction shows only after particular histories.", "anchors": ["atrcopy/diskimages.py: delete_file", "atrcopy/utils.py: Directory.find_dirent", "atrcopy/dos33.py: Dos33Dirent.get_sectors_in_vtoc"]}
{"id": "C19", "title": "DOS 3.3: any session behaves like a map from names to contents", "statement": "After any sequence of write_file, delete_file and shred calls on a DOS 3.3 image, find_file(n) returns for every n the (zero padded) data of the last successful write not followed by a delete, or the original content.", "quantifier": "every consistent starting image, every finite sequence of operations", "why_tests_cant": "Unbounded histories.", "anchors": ["atrcopy/diskimages.py: DiskImageBase.write_file, delete_file, shred", "atrcopy/dos33.py: Dos33DiskImage"]}
{"id": "C20", "title": "DOS 3.3: a refused write changes nothing", "statement": "If write_file on a DOS 3.3 image raises one of the library's own errors, the image bytes are exactly what they were before the call.", "quantifier": "every consistent image, every data", "why_tests_cant": "Depends on the exact failure point (data sectors, track/sector list, catalog).", "anchors": ["atrcopy/diskimages.py: begin_transaction, rollback_transaction, write_file", "atrcopy/dos33.py: Dos33VTOC.calc_bitmap, Dos33DiskImage.get_directory_sector_links"]}
{"id": "C21", "title": "DOS 3.3: every file type can be stored and listed", "statement": "A file written with any of the file types T, I, A, B, S, R, a, b is listed afterwards and can be read back.", "quantifier": "every file type, every image with room", "why_tests_cant": "The listing depends on the encoded flag of every entry in the catalog sector.", "anchors": ["atrcopy/dos33.py: Dos33DiskImage.get_directory, Dos33Dirent.flag, text_to_type"]}
{"id": "C22", "title": "DOS 3.3: the whole catalog is usable", "statement": "As long as a catalog sector has an unused entry and the disk has room, write_file succeeds.", "quantifier": "every consistent image", "why_tests_cant": "Only visible when the last catalog sector is reached (more than 98 files).", "anchors": ["atrcopy/dos33.py: Dos33DiskImage.get_directory_sector_links, Dos33Directory.set_sector_numbers"]}
{"id": "C23", "title": "Atari executable (XEX) round trip", "statement": "Parsing the file data produced by create_executable_file_data('x.xex', segments, run_addr) yields, after the run-address segment, exactly the given segments: same load addresses, same bytes, same order.", "quantifier": "every list of non-empty segments that fit in the 64K address space, every run address", "why_tests_cant": "Addresses and lengths range over 64K each and the number of segments is unbounded; 0xffff markers may be confused with addresses.", "anchors": ["atrcopy/executables.py: get_xex, create_executable_file_data", "atrcopy/ataridos.py: AtariDosFile.parse_segments"]}
{"id": "C24", "title": "The XEX parser is total and honest", "statement": "On any byte string the parser terminates with a list of segments or InvalidBinaryFile; every reported segment is a contiguous piece of the file placed at the address in its header, pieces do not overlap and appear in file order.", "quantifier": "every byte string", "why_tests_cant": "Arbitrary input of any length.", "anchors": ["atrcopy/ataridos.py: AtariDosFile.parse_segments"]}
{"id": "C25", "title": "BSAVE files load the right bytes", "statement": "The DOS 3.3 BSAVE file built from a list of segments, loaded at its header address, puts in memory the bytes of the segments (a later segment wins where they overlap, gaps are zero) and, if a run address other than the load address is requested, begins with a JMP to it.", "quantifier": "every non-empty list of segments, every run address", "why_tests_cant": "Arbitrary overlaps and orders of segments.", "anchors": ["atrcopy/executables.py: get_bsave, create_executable_file_data"]}
{"id": "C26", "title": "KBoot boot image round trip", "statement": "The file contained in a KBoot image built around an executable is exactly that executable.", "quantifier": "every executable of every length", "why_tests_cant": "The size field and padding arithmetic depend on the length modulo 128 and modulo 65536.", "anchors": ["atrcopy/kboot.py: add_xexboot_header, KBootDirent.parse_raw_dirent, KBootImage.get_file_segment", "atrcopy/ataridos.py: add_atr_header"]}
{"id": "C27", "title": "Boot images honour the run address", "statement": "create_boot_image(segments, run_addr) produces a bootable image whose executable runs at run_addr.", "quantifier": "every segment list and run address", "why_tests_cant": "Argument plumbing over all inputs.", "anchors": ["atrcopy/kboot.py: KBootImage.create_boot_image", "atrcopy/executables.py: get_xex"]}
{"id": "C28", "title": "Segments are exact windows on their raw data", "statement": "For a segment obtained by any chain of slices and index selections of a disk image, element i of the segment is the byte of the base data at the composed index, the reported raw index of i is that index, and the reverse lookup of that raw index is i.", "quantifier": "every chain of slices and index lists, every index", "why_tests_cant": "Chains are unbounded; each level composes index maps.", "anchors": ["atrcopy/segments.py: SegmentData.__getitem__, get_indexed, get_raw_index, get_reverse_index, OrderWrapper"]}
{"id": "C29", "title": "Editing through a segment changes the base and nothing else; copies are independent", "statement": "Assigning bytes through a segment changes exactly the corresponding bytes of the underlying data; data obtained by copy() is not affected by later edits of the original and vice versa.", "quantifier": "every segment, every index set, every value", "why_tests_cant": "Aliasing is a property of all other indices and all other segments.", "anchors": ["atrcopy/segments.py: SegmentData.copy, OrderWrapper.__setitem__, DefaultSegment.__setitem__"]}
{"id": "C30", "title": "Style ranges are exact", "statement": "get_style_ranges(...) returns exactly the maximal runs of bytes whose style has all requested bits: sorted, disjoint, non-adjacent and covering precisely the matching indexes; set_style_ranges / clear_style_bits change exactly the requested bits in the requested ranges.", "quantifier": "every style array, every bit combination", "why_tests_cant": "Run extraction has boundary cases at both ends and must hold for every pattern.", "anchors": ["atrcopy/segments.py: get_style_bits, get_style_mask, DefaultSegment.get_style_ranges, bool_to_ranges, set_style_ranges, clear_style_bits"]}
{"id": "C31", "title": "Next/previous search over styled ranges", "statement": "find_next(i) returns the start of the first matching range starting after i (wrapping to the first range), and find_previous(i) the start of the last matching range starting before i (wrapping to the last range); None if there is no range.", "quantifier": "every style array, every index", "why_tests_cant": "Boundary at i itself and wrap-around for every pattern.", "anchors": ["atrcopy/segments.py: DefaultSegment.find_next, find_previous"]}
{"id": "C32", "title": "The disassembly style ranges tile the segment", "statement": "get_entire_style_ranges returns consecutive ranges that start at 0, end at the segment length, have no gaps or overlaps, and whose styles are constant within each range.", "quantifier": "every style array and comment placement", "why_tests_cant": "Must hold for every pattern of styles and split comments.", "anchors": ["atrcopy/segments.py: DefaultSegment.get_entire_style_ranges"]}
{"id": "C33", "title": "Rectangular selections address exactly the rectangle", "statement": "The indexes computed for a rectangular selection between two corners are exactly the bytes whose row and column lie within the rectangle, independent of which corner comes first; styling a rectangle changes exactly those bytes (clipped to the segment).", "quantifier": "every anchor pair, every row width, every segment length", "why_tests_cant": "Row/column arithmetic over all positions and widths.", "anchors": ["atrcopy/segments.py: DefaultSegment.get_rect_indexes, set_style_ranges_rect, rects_to_ranges"]}
{"id": "C34", "title": "Comments behave like a map on raw positions", "statement": "After any sequence of set_comment_at / clear_comment / remove_comment the comment reported at an index is the one last set there, whichever segment view it was set through, and saved restore data puts back exactly the comments and styles of the range.", "quantifier": "every sequence of comment operations and every view", "why_tests_cant": "Unbounded sequences; views alias the same raw positions.", "anchors": ["atrcopy/segments.py: DefaultSegment.set_comment_at, get_comment, clear_comment, get_comment_restore_data, restore_comments"]}
{"id": "C35", "title": "Saved sessions restore the annotations", "statement": "serialize_session followed by restore_session on a fresh view of the same data restores all comments, the user data and the comment / user style bits exactly.", "quantifier": "every style array and comment set", "why_tests_cant": "Style bits overlap; must hold for all 256 styles at every position.", "anchors": ["atrcopy/segments.py: DefaultSegment.serialize_session, restore_session"]}
{"id": "C36", "title": "Segments survive being saved and rebuilt", "statement": "A segment's saved state, rebuilt on the same base data with reconstruct_raw, is a window on the same bytes in the same order.", "quantifier": "every segment obtained by slicing or indexing", "why_tests_cant": "All offsets and orders.", "anchors": ["atrcopy/segments.py: DefaultSegment.__getstate__, reconstruct_raw, byte_bounds_offset"]}
{"id": "C37", "title": "Interleaving segments is an exact shuffle", "statement": "interleave_segments(segments, n) contains at position i exactly the byte of the right input segment at the right offset, and uses each input byte at most once.", "quantifier": "every number of segments, every factor, every length", "why_tests_cant": "Index arithmetic over all sizes.", "anchors": ["atrcopy/segments.py: interleave_indexes, interleave_segments"]}
{"id": "C38", "title": "Cartridge images are cut without loss", "statement": "For every known cartridge type, the main bank and the other banks reported for an image of the right size are disjoint and cover the whole cartridge data; the CART header round-trips.", "quantifier": "every cartridge type in the table, every image content", "why_tests_cant": "About seventy table entries with different bank counts and origins.", "anchors": ["atrcopy/cartridge.py: known_cart_types, A8CartHeader, AtariCartImage.parse_segments, RomImage.check_size"]}
{"id": "C39", "title": "The command line saves what it reports as added", "statement": "After `atrcopy IMAGE add FILES`, if the command finishes normally, every file it reported as copied is present in the saved image; --dry-run never changes the image file; without --force an existing file is never replaced.", "quantifier": "every list of files, every image", "why_tests_cant": "Depends on the order of skipped and copied files.", "anchors": ["atrcopy/__init__.py: add_files, save_file, remove_files"]}
{"id": "C40", "title": "Extraction is faithful and never clobbers without --force", "statement": "extract writes for each selected file exactly its contents (with --text the documented end-of-line conversion) and leaves existing local files unchanged unless --force is given.", "quantifier": "every image, every selection, every local directory state", "why_tests_cant": "All combinations of names and existing files.", "anchors": ["atrcopy/__init__.py: extract_files"]}
{"id": "C41", "title": "SpartaDOS files read exactly", "statement": "Reading a SpartaDOS file returns exactly the first `length` bytes of the concatenation of the sectors named by its sector map.", "quantifier": "every SpartaDOS image, every listed file", "why_tests_cant": "All lengths, map chains and sector sizes.", "anchors": ["atrcopy/spartados.py: SpartaDosDirent.read_sector, SpartaDosDiskImage.get_sector_map, get_file_segment"]}
{"id": "C42", "title": "Opening arbitrary data fails only with the library's errors", "statement": "Trying to open any byte string as an Atari or Apple disk image either succeeds or raises a subclass of the library's AtrError, so that format guessing can move on to the next format.", "quantifier": "every byte string", "why_tests_cant": "The space of malformed files is unbounded.", "anchors": ["atrcopy/ataridos.py: AtariDosDiskImage, AtrHeader.check_size", "atrcopy/dos33.py: Dos33DiskImage", "atrcopy/parsers.py: SegmentParser.parse, guess_parser_by_size"]}
{"id": "C43", "title": "Standard Delivery boot disks hold every page of the program", "statement": "On a Standard Delivery boot disk, following the stored page list and the documented sector order reads back, for every memory page of the program, exactly the program's bytes (zero padded to a page).", "quantifier": "every segment list that fits on the disk", "why_tests_cant": "Chunking, run-length coding and sector interleave for all sizes and origins.", "anchors": ["atrcopy/standard_delivery.py: StandardDeliveryImage.create_boot_image"]}
{"id": "C44", "title": "Number parsing accepts every documented notation", "statement": "text_to_int returns the value denoted for hexadecimal (0x.., $.., plain), decimal (#..) and binary (%..) notation of every number.", "quantifier": "every natural number, every notation", "why_tests_cant": "Unbounded numbers.", "anchors": ["atrcopy/utils.py: text_to_int"]}
{"id": "C45", "title": "Format detection picks the first format that accepts the data", "statement": "Guessing the format tries the parsers in their documented order and returns the first that accepts; data no parser accepts is reported as unrecognised.", "quantifier": "every parser list and every outcome of each parser", "why_tests_cant": "Arbitrary combinations of accepting and refusing parsers.", "anchors": ["atrcopy/parsers.py: guess_parser_for_mime, guess_parser_for_system, iter_parsers"]}
{"id": "C46", "title": "Byte labels name the right sector", "statement": "The label shown for a byte of a raw-sectors view names the sector (and offset) that actually contains this byte.", "quantifier": "every geometry and every byte index", "why_tests_cant": "All indexes, including the boundary between boot sectors and data sectors.", "anchors": ["atrcopy/segments.py: RawSectorsSegment.label, RawTrackSectorSegment.label"]}
{"id": "C47", "title": "Files grow correctly with the sector size", "statement": "The write/read round trip holds for every sector size an ATR header can declare.", "quantifier": "every sector size accepted on open", "why_tests_cant": "Sector sizes other than 128 and 256 are not exercised by tests.", "anchors": ["atrcopy/ataridos.py: AtariDosWriteableSector.next_sector_num, AtrHeader.check_size"]}
{"id": "C48", "title": "The reported free-sector count follows the operations", "statement": "After a write or delete the number of free sectors shown for the image changes by exactly the number of sectors allocated or released.", "quantifier": "every image, every operation", "why_tests_cant": "Depends on both the bitmap and the counter fields.", "anchors": ["atrcopy/ataridos.py: AtariDosDiskImage.get_vtoc, AtariDosVTOC.calc_bitmap"]}
{"id": "C49", "title": "A cross-linked file is reported, not misread", "statement": "If following the sector links of an Atari DOS 2 file reaches a sector that carries the number of another file, reading raises FileNumberMismatch164; data is only ever returned when every sector visited carries the file's own number.", "quantifier": "every image, every DOS 2 directory entry, every chain length", "why_tests_cant": "Chains of any length and any damaged link bytes.", "anchors": ["atrcopy/ataridos.py: AtariDosDirent.process_raw_sector, AtariDosDiskImage.get_file"]}
{"id": "C50", "title": "Opening an image refuses impossible entries", "statement": "Every file of an opened Atari DOS image starts at a sector of the image and has no more sectors than the image; an image with a file entry in use that violates this is refused. For DOS 3.3 the sector list of a file starts at a sector of the disk outside track 0 and the file has no more sectors than the disk, and again an image with an entry in use for which this is false is refused.", "quantifier": "every byte string", "why_tests_cant": "All possible directory contents.", "anchors": ["atrcopy/ataridos.py: AtariDosDirent.parse_raw_dirent, AtariDosDiskImage.get_directory", "atrcopy/dos33.py: Dos33Dirent.sanity_check, Dos33DiskImage.get_directory"]}
{"id": "C51", "title": "Reported Atari totals are the words in the VTOC", "statement": "The total and free sector counts of an opened Atari DOS image are the little-endian words at bytes 1-2 and 3-4 of sector 360, the free count of an enhanced density disk being increased by the word at bytes 122-123 of sector 1024.", "quantifier": "every image that opens", "why_tests_cant": "All VTOC contents and all disk sizes.", "anchors": ["atrcopy/ataridos.py: AtariDosDiskImage.get_vtoc"]}
{"id": "C52", "title": "DOS 3.3: space accounting is exact", "statement": "A successful write_file of n bytes on a DOS 3.3 image takes exactly ceil(n/256) data sectors and the track/sector-list sectors they need, the lowest-numbered free ones; delete_file returns exactly the sectors of the file, so writing and deleting a file restores the free map.", "quantifier": "every image, every file size", "why_tests_cant": "All free maps and sizes, including several list sectors.", "anchors": ["atrcopy/dos33.py: Dos33DiskImage.write_file, Dos33VTOC"]}
{"id": "C53", "title": "DOS 3.3: an operation touches only what it must", "statement": "write_file changes no byte outside the newly allocated sectors, the VTOC sector and the catalog sectors; delete_file changes no byte outside the VTOC and the catalog.", "quantifier": "every image, every operation", "why_tests_cant": "Every byte of the image is constrained.", "anchors": ["atrcopy/dos33.py: Dos33DiskImage.write_file, delete_file"]}
{"id": "C54", "title": "Comment styles are put right", "statement": "After fixup_comments the comment style bit of a byte is set exactly where the shared comment table has an entry, and every other style bit, all data and all comments are unchanged.", "quantifier": "every segment, every set of comments, every previous style", "why_tests_cant": "Every byte of the style array is constrained for arbitrary contents.", "anchors": ["atrcopy/segments.py: DefaultSegment.fixup_comments"]}
{"id": "C55", "title": "Comparing segments marks exactly the differences", "statement": "After compare_segment with a segment of the same length, the difference style bit is set exactly on the bytes that differ and no other style bit or byte changes.", "quantifier": "every pair of segments of equal length, any previous styles", "why_tests_cant": "All contents and all windows.", "anchors": ["atrcopy/segments.py: DefaultSegment.compare_segment"]}
{"id": "C56", "title": "User data behaves like one map per user style on raw positions", "statement": "After set_user_data over ranges, get_user_data gives the new value through every view that shows one of the positions and its old value everywhere else; the maps of other user styles are unaffected.", "quantifier": "every segment, every list of ranges, every view", "why_tests_cant": "Views, ranges and previous values are arbitrary.", "anchors": ["atrcopy/segments.py: DefaultSegment.set_user_data, get_user_data"]}
{"id": "C57", "title": "The sorted user data lists the maximal runs", "statement": "get_sorted_user_data returns ordered, non-empty ranges whose positions are exactly those with user data, each range with one value, and touching ranges with different values.", "quantifier": "every user data table", "why_tests_cant": "Tables of any size and shape.", "anchors": ["atrcopy/segments.py: DefaultSegment.get_sorted_user_data"]}
{"id": "C58", "title": "The comments of a range are exactly those inside it", "statement": "get_comments_in_range(start, end) contains a comment for index i exactly if start <= i < end and the byte shown there has a comment, and it is that comment.", "quantifier": "every segment without repeated positions, every range", "why_tests_cant": "All windows and comment tables.", "anchors": ["atrcopy/segments.py: DefaultSegment.get_comments_in_range"]}
{"id": "C59", "title": "Extracted files stay inside the chosen directory", "statement": "With --dir D every file extract writes lies directly inside D, whatever names the disk image contains.", "quantifier": "every image, every directory, every name on the disk", "why_tests_cant": "A hostile image can contain any name bytes.", "anchors": ["atrcopy/__init__.py: extract_files"]}
{"id": "C60", "title": "The delete command removes exactly the named files", "statement": "After `atrcopy IMAGE delete FILES` the saved image no longer has the named files and all other files read as before; the image file is rewritten only if a named file was there; write-protected files go only with --force.", "quantifier": "every image, every list of names", "why_tests_cant": "All name lists, including repeated and missing names.", "anchors": ["atrcopy/__init__.py: remove_files"]}
{"id": "C61", "title": "The create command makes an exact copy of the named template", "statement": "create writes an image file that is byte for byte the one template whose name contains the given text, never replaces an existing file without --force, writes nothing with --dry-run, touches no other file, and every documented template name selects its template.", "quantifier": "every template name, every local directory state", "why_tests_cant": "All states of the directory and all names.", "anchors": ["atrcopy/__init__.py: create_image, get_template_data, get_template_images", "README.rst: Creating Disk Images"]}
{"id": "C62", "title": "The boot command writes only the boot image", "statement": "`atrcopy IMAGE boot` writes exactly the generated boot image, of the kind given by the extension, to the image file and touches no other file; an existing file is replaced only with --force and nothing is written with --dry-run.", "quantifier": "every name, every list of segments, every local directory state", "why_tests_cant": "All states and segment lists.", "anchors": ["atrcopy/__init__.py: boot_image", "atrcopy/parsers.py: parsers_for_filename"]}
{"id": "C63", "title": "Data file arguments select exactly the stated bytes", "statement": "The argument FILE[START:END]@ADDR of assemble and boot stands for bytes START..END of FILE at ADDR, FILE@ADDR for the whole file, and an argument with bounds that are not numbers is refused.", "quantifier": "every file, every pair of bounds, every address", "why_tests_cant": "Unbounded numbers and contents.", "anchors": ["atrcopy/__init__.py: assemble_segments"]}
{"id": "C64", "title": "A cartridge image is recognised exactly by its header", "statement": "Data is recognised as an Atari home computer (or 5200) cartridge exactly if it is a CART header of a known type for that machine followed by exactly that type's number of bytes; the type reported is the one in the header and the data is kept unchanged.", "quantifier": "every byte string, both machines", "why_tests_cant": "All byte strings and all cartridge types.", "anchors": ["atrcopy/cartridge.py: AtariCartImage, Atari8bitCartImage, Atari5200CartImage, A8CartHeader", "atrcopy/parsers.py: SegmentParser.parse, guess_parser_for_mime, known_segment_parsers"]}
{"id": "C65", "title": "A ROM image is accepted exactly if its size is a power of two", "statement": "Data is accepted as a ROM image exactly if its number of bytes is a power of two, and then there is one segment holding all of it.", "quantifier": "every byte string", "why_tests_cant": "All sizes.", "anchors": ["atrcopy/cartridge.py: RomImage"]}
{"id": "C66", "title": "SpartaDOS directory is listed exactly", "statement": "Opening a SpartaDOS disk lists the entries of the root directory in order with their names, flags, first map sector and length; the printed directory has exactly the entries in use; a name finds the file in use with that name.", "quantifier": "every SpartaDOS disk", "why_tests_cant": "All directory lengths and entry contents.", "anchors": ["atrcopy/spartados.py: SpartaDosDirent.parse_raw_dirent, SpartaDosDiskImage.get_boot_sector_info, get_directory", "atrcopy/diskimages.py: DiskImageBase.dir, find_dirent"]}
{"id": "C67", "title": "Operations on a SpartaDOS image do no damage", "statement": "Adding and deleting files on a SpartaDOS image is refused and changes no byte, and shredding it overwrites only sectors that the bitmap marks free.", "quantifier": "every SpartaDOS disk, every file name and contents", "why_tests_cant": "All disks and bitmaps.", "anchors": ["atrcopy/spartados.py: SpartaDosDiskImage.get_directory, get_vtoc_segments", "atrcopy/diskimages.py: DiskImageBase.write_file, delete_file, shred", "atrcopy/ataridos.py: AtariDosVTOC.parse_segments"]}
{"id": "C68", "title": "A Standard Delivery disk is made exactly if the program fits", "statement": "Creating a Standard Delivery boot disk succeeds exactly if the program has at most 559 pages and its page list (two bytes for each run of up to 32 pages, 32 bytes for the first hi-res screen, one byte for showing a screen) has at most 119 bytes; a program of at most eight pieces and 559 pages always fits.", "quantifier": "every list of segments on pages the loader can load, every start address", "why_tests_cant": "All numbers and sizes of segments.", "anchors": ["atrcopy/standard_delivery.py: StandardDeliveryImage.create_boot_image, get_fstbt_code", "atrcopy/diskimages.py: DiskImageBase.write_sector_list, BaseHeader.get_pos"]}
{"id": "C69", "title": "An image stays recognised after it is changed", "statement": "After adding, deleting or shredding files on an image that is recognised, the saved bytes are again recognised as the same kind of image with the same files; a newly formatted image is recognised.", "quantifier": "every recognised Atari DOS 2 or DOS 3.3 image and every operation on it", "why_tests_cant": "All images and all sequences of operations; the byte patterns that make another parser claim the data cannot be enumerated.", "anchors": ["atrcopy/parsers.py: guess_parser_for_mime, guess_parser_by_size, iter_parsers, mime_parse_order", "atrcopy/magic.py: guess_detail_for_mime", "atrcopy/__init__.py: find_diskimage"]}
{"id": "C70", "title": "Known game images are recognised by their signature", "statement": "Data whose SHA-1 is listed in the signature table is recognised as an image for the system listed there, whatever else its bytes look like.", "quantifier": "every entry of the signature table", "why_tests_cant": "The images themselves cannot be shipped with tests, and SHA-1 is opaque.", "anchors": ["atrcopy/parsers.py: guess_parser_by_size", "atrcopy/signatures.py: sha1_signatures", "atrcopy/cartridge.py: RomImage, AtariCartImage.relaxed_check"]}
{"id": "C71", "title": "Resizing a container keeps its contents", "statement": "Resizing a container segment keeps its first bytes and styles, fills the rest with zeros (or, if asked, with repetitions of the old bytes), changes no other segment, and after that every segment of the container that is given the new arrays shows the same bytes, styles and comments at the same positions; this can be repeated with any size.", "quantifier": "every container, every new size, every segment taken from it by slicing and index lists", "why_tests_cant": "All sizes and all windows; the sharing of arrays between segments is invisible to simple value checks.", "anchors": ["atrcopy/segments.py: SegmentData.resize, replace_arrays, DefaultSegment.resize, replace_data"]}
{"id": "C72", "title": "Comments at lists of indexes", "statement": "Setting comments at a list of indexes stores, for every segment that shares the position, the last text given for it (no text removes it) and changes nothing else; removing comments at indexes does the same; reading comments at the indexes returns those texts; the first comment of some ranges is the one at the smallest start.", "quantifier": "every segment, every list of indexes and texts", "why_tests_cant": "All windows, overlapping index lists and sequences.", "anchors": ["atrcopy/segments.py: DefaultSegment.set_comments_at_indexes, remove_comments_at_indexes, get_comments_at_indexes, get_first_comment"]}
{"id": "C73", "title": "Assembling stores an executable that loads the given pieces", "statement": "`atrcopy IMAGE assemble` with source files, data files and object files stores, under the output name, an executable that loads all segments of those files at their addresses in the given order and starts at the address given with -r, or else at that of the object files; an existing file is replaced only with --force; an executable extracted and assembled again gives the same bytes.", "quantifier": "every Atari DOS 2 or DOS 3.3 image, every list of source, data and object files, every run address", "why_tests_cant": "All numbers and contents of segments and all disks.", "anchors": ["atrcopy/__init__.py: assemble_segments, assemble, run", "atrcopy/executables.py: create_executable_file_data", "atrcopy/diskimages.py: create_executable_file_image"]}
{"id": "C74", "title": "Every sequence of program runs acts like a sequence of map operations", "statement": "Running the program any number of times on the same image file (list, crc, add, extract, delete, assemble, shred, vtoc, segments) acts on the files of the image exactly as the corresponding operations on a map from names to contents; the image file is a consistent, recognised image after each run; a file added in one run is extracted with the same contents by a later one.", "quantifier": "every Atari DOS 2 or DOS 3.3 image, every sequence of commands, every option", "why_tests_cant": "All sequences of runs over all images; the image is parsed anew from its bytes in each run.", "anchors": ["atrcopy/__init__.py: run, add_files, extract_files, remove_files, shred_free, list_files, crc_files, assemble, find_diskimage"]}
{"id": "C75", "title": "A run touches only what it says", "statement": "With --dry-run no file changes; list, crc, vtoc without --clear and segments change no file; add, delete, assemble, shred and vtoc change no file but the image, and nothing at all if they fail; extracting never overwrites a local file without --force and never changes the image.", "quantifier": "every command, every option, every directory state, every kind of image", "why_tests_cant": "All states and commands, failing ones included.", "anchors": ["atrcopy/__init__.py: run"]}
{"id": "C76", "title": "Checksums shown are those of the contents", "statement": "`crc` and `list --crc` print one line for each file of the image that was asked for (each file if none was named), in directory order, with the CRC-32 of its contents, and change nothing.", "quantifier": "every Atari DOS 2 or DOS 3.3 image, every list of names", "why_tests_cant": "All images and contents.", "anchors": ["atrcopy/__init__.py: list_files, crc_files, run"]}
{"id": "C77", "title": "Boot disks made by the program boot the program", "statement": "`atrcopy NAME.atr boot` and `atrcopy NAME.dsk boot` with source, data and object files write a boot disk that loads exactly the segments of those files and starts at the address given with -r, or else at that of the object files, or else at the first segment.", "quantifier": "every list of files, every start address", "why_tests_cant": "All programs.", "anchors": ["atrcopy/__init__.py: assemble_segments, boot_image, run", "atrcopy/kboot.py: KBootImage.create_boot_image", "atrcopy/standard_delivery.py: StandardDeliveryImage.create_boot_image"]}
{"id": "C78", "title": "Executables made by the program are recognised", "statement": "An Atari executable, a BSAVE file and a KBoot disk made by this package are recognised as such when they are opened, with the segments they were made from.", "quantifier": "every list of segments and run address", "why_tests_cant": "All contents; other formats are tried first on the same bytes.", "anchors": ["atrcopy/__init__.py: find_diskimage", "atrcopy/parsers.py: guess_parser_for_mime, mime_parse_order", "atrcopy/executables.py: get_xex, get_bsave", "atrcopy/kboot.py: KBootImage"]}
{"id": "C79", "title": "Every shipped template is a consistent, recognised image", "statement": "Each of the disk image templates shipped with the package is a consistent image of its format: it is recognised as that format, lists exactly the files it contains, each readable in full, with no sector used twice or both used and free. An image made with `create` is recognised in the same way, and starts with exactly these files.", "quantifier": "every shipped template of a disk with a file system, every image name, every state of the local directory", "why_tests_cant": "Creating is tested by opening one image; that every sector of every template is accounted for, and that all further commands therefore meet the conditions of the other properties, is not checked.", "anchors": ["atrcopy/templates/*", "atrcopy/__init__.py: create_image, get_template_data, run"]}
{"id": "C80", "title": "The current directory in place of an image", "statement": "With `.` as the image, no command but create and boot changes a file that exists unless --force is given; `add` copies each file under its base name (the first of several with the same base name wins, with --force the last); `extract` and `delete` act on local files; `assemble` writes an executable that loads exactly the segments gathered and starts where asked.", "quantifier": "every state of the local directory, every list of files, every option", "why_tests_cant": "All directory states, including several files with one base name and names that exist.", "anchors": ["atrcopy/dummy.py: LocalFilesystem, LocalFilesystemImage", "atrcopy/__init__.py: add_files, extract_files, remove_files, assemble, run"]}
{"id": "C81", "title": "A boot disk for the Apple ][ runs its program on the machine", "statement": "If an Apple ][ boots from a disk made with `boot` (or with StandardDeliveryImage.create_boot_image), the processor, running the machine code that was put into the boot sector, reaches the start address of the program, with the bytes of every segment at their addresses, no other memory changed but that which the loader and the disk ROM use, the hi-res screen on, and of the two screens the one that was loaded last.", "quantifier": "every program the format can carry, every start address, every slot of the disk controller, every state of memory and registers in which the boot ROM can enter the boot sector, whatever the disk ROM leaves in its work areas", "why_tests_cant": "The tests compare the image with itself; none runs the boot code, and it cannot be run for all programs.", "anchors": ["atrcopy/fstbt.py: fstbt", "atrcopy/standard_delivery.py: StandardDeliveryImage.create_boot_image, get_fstbt_code", "atrcopy/__init__.py: boot_image, run"]}
{"id": "C82", "title": "A boot disk for the Atari runs its program on the machine", "statement": "If an Atari computer boots from a disk made with `boot` (or with KBootImage.create_boot_image), the processor, running the machine code that was put into the boot sectors, reads the executable through the operating system and reaches its start address - the one given, or else that of the first segment -, with the bytes of every segment at their addresses and the memory programs use otherwise unchanged.", "quantifier": "every list of segments in memory that programs can use, every state of memory and registers in which the operating system can enter the boot sectors, whatever the operating system leaves in its work areas", "why_tests_cant": "The tests compare the image with itself; none runs the boot code, and it cannot be run for all programs.", "anchors": ["atrcopy/kboot.py: xexboot_header, add_xexboot_header, KBootImage.create_boot_image", "atrcopy/ataridos.py: add_atr_header", "atrcopy/__init__.py: boot_image, run"]}
{"id": "C83", "title": "Files copied from one disk to another arrive unchanged", "statement": "Extracting files (or all files) from one disk image and adding what was extracted to another one puts exactly these files, under the same names and with the same contents, on the second disk, besides the files it has - padded with zeros to whole sectors if they go from an Atari disk to a DOS 3.3 one. The first disk and all other local files stay as they are. If there is room for the files, copying succeeds; if it does not, the second disk is as it was.", "quantifier": "every pair of consistent Atari DOS or Apple DOS 3.3 images, every choice of files, every local directory, every option", "why_tests_cant": "All pairs of disks and all file names; no test uses two images.", "anchors": ["atrcopy/__init__.py: extract_files, add_files, save_file, run", "atrcopy/ataridos.py: AtariDosDiskImage", "atrcopy/dos33.py: Dos33DiskImage"]}
{"id": "C84", "title": "A file can be edited in place through its segment", "statement": "The segment of a file on a disk image shows exactly the bytes of the file. Assigning bytes through it - to an element, to a list of elements or to a slice, of the segment itself or of any chain of slices and selections of it - changes the file at exactly these places, at once and also after the image has been saved and opened again. No other file, no directory entry, no link between sectors, no free sector and nothing else on the disk changes, segments taken before stay valid, and any sequence of such edits of any files has the effect it has on a map from names to contents.", "quantifier": "every consistent Atari DOS or Apple DOS 3.3 image of up to 2^31 bytes, every file on it, every chain of slices and selections, every list of places and bytes, every sequence of edits", "why_tests_cant": "All chains of views, orders with repetitions, and sectors in any order on the disk.", "anchors": ["atrcopy/ataridos.py: AtariDosDiskImage.get_file_segment", "atrcopy/dos33.py: Dos33DiskImage.get_file_segment", "atrcopy/segments.py: SegmentData.get_indexed, DefaultSegment.__setitem__", "atrcopy/diskimages.py: DiskImageBase"]}
{"id": "C85", "title": "What is listed tells the files apart", "statement": "The text printed by list determines what it shows: if two images are listed with the same text, then the headers, the sector and file counts, and for every listed file the number, flags or type, first sector or track, name, size (and date on SpartaDOS disks) and, with --crc, the checksum of the contents are the same. Numbers are printed so that they read back. The text printed by crc determines the names and checksums of the files. list without --crc never fails on an opened image.", "quantifier": "every two byte strings accepted as Atari DOS, DOS 3.3 or SpartaDOS images, every selection of file names, every checksum function with values below 2^32", "why_tests_cant": "Needs all pairs of images; columns of different widths could run into each other in ways no sample shows.", "anchors": ["atrcopy/__init__.py: list_files, crc_files, run", "atrcopy/ataridos.py: AtariDosDirent.__str__, summary, AtrHeader.__str__, XfdHeader.__str__, AtariDosDiskImage.__str__", "atrcopy/dos33.py: Dos33Dirent.__str__, summary, Dos33Header.__str__", "atrcopy/spartados.py: SpartaDosDirent.__str__, str_timestamp, SpartaDosDiskImage.__str__"]}
{"id": "C86", "title": "The printed sector map shows the free sectors", "statement": "vtoc prints, for every sector of the disk, a 1 if the sector is free and a 0 if it is in use, at a place in the text that depends on the number of the sector only, followed by the number of free sectors.", "quantifier": "every consistent Atari DOS and Apple DOS 3.3 image, every SpartaDOS disk", "why_tests_cant": "Every bit of every map, and every disk size.", "anchors": ["atrcopy/utils.py: VTOC.__str__", "atrcopy/__init__.py: run", "atrcopy/ataridos.py: AtariDosDiskImage.vtoc_class", "atrcopy/dos33.py: Dos33VTOC"]}
{"id": "C87", "title": "A command line runs what it asks for", "statement": "A command line written as in the manual - global options and the name of the image in any order, a command by any of its names, its options before or after the files, spelt short, long or with an equals sign - runs that command on that image with exactly these options and files; of an option given several times the last word counts, or all its words if it takes a list. Without a command the image is listed. Asking for help anywhere shows help and runs nothing. Every other sequence of words ends in help, an error message or a command on the first word that is no option, never in an internal error.", "quantifier": "every list of words without an argument that is just two dashes; every number and order of options, every name that does not start with a dash", "why_tests_cant": "All orders, spellings and repetitions of options, and arbitrary words.", "anchors": ["atrcopy/__init__.py: run"]}
{"id": "C88", "title": "The list of segments shows what is on the disk", "statement": "The segments made when a disk image is opened are: the whole image; its header and its sectors, which follow each other and make up the image; the boot sectors, their header and their code, if the disk is bootable; the sector map and the directory; and one segment for every file, in the order of the directory, whose bytes are the file. Each carries its name, its load address and the numbers of its sectors, and these and its length are what is printed. No byte belongs to the segments of two files, or to that of a file and those of the sector map or the directory. Making the list changes no byte of the image: only the sector map and the directory are marked as data and the fields in them commented. For an executable the list has every piece of the file at its load address, and only the addresses between the pieces are marked as data; for a cartridge its header, its main bank and its other banks, which make up the cartridge; for a zip file with ROMs its members. Recognising a format leaves no marks of the formats tried before.", "quantifier": "every consistent Atari DOS and DOS 3.3 image; every byte string accepted as SpartaDOS, boot, KBoot or unidentified disk, as an executable, BSAVE file, cartridge, ROM or MAME file; any raw data object holding it, with any earlier annotations", "why_tests_cant": "Every position of every file on every disk, with annotations anywhere; the tests look at numbers of segments of a few images.", "anchors": ["atrcopy/parsers.py: SegmentParser.parse", "atrcopy/diskimages.py: DiskImageBase.parse_segments, get_file_segments, get_contiguous_sectors", "atrcopy/ataridos.py: AtariDosDiskImage.get_boot_segments, get_vtoc_segments, get_directory_segments, get_file_segment, BootDiskImage.get_boot_segments", "atrcopy/dos33.py: Dos33DiskImage.get_boot_segments, get_vtoc_segments, get_directory_segments, get_file_segment", "atrcopy/spartados.py: SpartaDosDiskImage.get_boot_segments, get_vtoc_segments, get_directory_segments, get_file_segment", "atrcopy/kboot.py: KBootImage.parse_segments", "atrcopy/ataridos.py: AtariDosFile.parse_segments", "atrcopy/dos33.py: Dos33BinFile.parse_segments", "atrcopy/cartridge.py: BaseAtariCartImage.parse_segments, AtariCartImage, RomImage", "atrcopy/mame.py: MameZipImage", "atrcopy/segments.py: DefaultSegment.__str__, ObjSegment.__str__, RawSectorsSegment.__str__, EmptySegment"]}
{"id": "C89", "title": "The saved list of segments comes back", "statement": "The state of a parser that is saved - the list of segments of an image, without the data - can be restored on data of the same size, in another process: every segment has its name, kind, load address, sector numbers and the positions of its bytes again, so the printed list is the same, and on the data it was made from every segment shows the same bytes. Together with the saved session of the whole data, every segment has its comments and the styles that sessions keep. It does not matter what was edited or annotated in between.", "quantifier": "every image accepted as a disk of any format, executable, BSAVE file, cartridge, ROM or MAME file, consistent or not, up to 2^31 bytes; every later state of its annotations; every data of that size that the format accepts", "why_tests_cant": "All positions of all segments of all images; the tests restore single segments of a few bytes.", "anchors": ["atrcopy/parsers.py: SegmentParser.__getstate__, __setstate__, reconstruct_segments, get_image, DefaultSegmentParser", "atrcopy/segments.py: DefaultSegment.__getstate__, __setstate__, reconstruct_raw, serialize_session, restore_session, SegmentData.byte_bounds_offset"]}
{"id": "C90", "title": "Any recognised image can be an object file", "statement": "The segments command prints the list of segments of every image that is recognised and changes nothing. Given as object file to assemble or boot, an image contributes every segment of this list that has a load address, in the order of the list, at this address and with the bytes that the segment shows: the pieces of an executable and its address to run, the main bank and the other banks of a cartridge, the ROMs of a zip file, the boot code of a disk, the programs on a DOS 3.3 disk and the program on a KBoot disk. Nothing else than bytes is contributed, and only an executable sets the address to run.", "quantifier": "every byte string that is recognised, every file name, every state of the file system; every unpacking of a packed image", "why_tests_cant": "All formats, sizes and contents; the tests give executables only.", "anchors": ["atrcopy/__init__.py: assemble_segments, run, find_diskimage", "atrcopy/parsers.py: SegmentParser.parse", "atrcopy/segments.py: SegmentData.__init__, ObjSegment, SegmentedFileSegment", "atrcopy/utils.py: to_numpy"]}
{"id": "C91", "title": "A byte can be found by its address and label", "statement": "The address of every byte of a segment leads to the place of the byte in the base data, and this place back to the index of the byte (to the last index of it, if a place is selected more than once); places that are not in the segment are refused, and so are addresses outside it. The label of a byte is its address in hexadecimal, which the program's reader of numbers reads back, or its sector (or track and sector) and the byte in it; no two bytes of a segment have the same label. A subset of a segment shows the selected bytes of the same base data in the order given and is refused exactly if an index is outside the segment; the parallel data of a segment in another container of the same size are the bytes at the same places. A segment added to a list has data of its own.", "quantifier": "every segment - the whole of its base, a contiguous part or a selection in any order with repetitions - every index, address, order and base; any address of the segment, any number and size of boot sectors", "why_tests_cant": "All selections, all addresses and numbers of any length; the tests look up single bytes.", "anchors": ["atrcopy/segments.py: DefaultSegment.is_valid_index, get_raw_index_from_address, get_index_from_base_index, label, create_subset, get_parallel_raw_data, RawSectorsSegment.label, RawTrackSectorSegment.label, SegmentList.add_segment", "atrcopy/utils.py: text_to_int"]}
{"id": "C92", "title": "A search looks at the current bytes", "statement": "A search through a segment looks at the bytes that the segment has at this time, whatever was searched and assigned before through this and other segments of the same base data.", "quantifier": "every number of segments on any base data and every sequence of searches and assignments through them", "why_tests_cant": "Sequences of any length over overlapping segments.", "anchors": ["atrcopy/segments.py: DefaultSegment.search_copy, __setitem__, update_raw_pointers"]}
{"id": "C93", "title": "Metadata show flags and sectors", "statement": "A listing with metadata has the lines of the listing without, each followed by the metadata of its file, and on Atari DOS, SpartaDOS and consistent DOS 3.3 disks the metadata never make it fail. For Atari DOS and SpartaDOS the word of each flag stands in the metadata exactly if the flag is set. For DOS 3.3 the metadata are the numbers of the sectors of the track/sector list, each with its link to the next, and the numbers of the data sectors, all of which can be read back from the text: the data sectors in this order hold the file, no sector shown is free, and none is shown for two files. Two disks with the same listing have the same sectors for the same files.", "quantifier": "every image of these formats (DOS 3.3: every consistent one), every selection of files, with and without checksums", "why_tests_cant": "All directories and all allocations of sectors; the tests do not look at printed text.", "anchors": ["atrcopy/__init__.py: list_files", "atrcopy/ataridos.py: AtariDosDirent.verbose_info, extra_metadata", "atrcopy/spartados.py: SpartaDosDirent.verbose_info", "atrcopy/dos33.py: Dos33Dirent.extra_metadata, get_track_sector_list", "atrcopy/utils.py: BaseSectorList.__str__, WriteableSector.__str__"]}
{"id": "C94", "title": "Bare cartridge data get a header", "statement": "Bare cartridge data can be given a header: the result is the 16 bytes of a header and then the data unchanged, and it is an image that the program accepts as a cartridge again. The kinds of cartridge offered for data of a size are those of this size.", "quantifier": "all data, every size and every type of cartridge", "why_tests_cant": "All contents of all sizes; no test makes a header.", "anchors": ["atrcopy/cartridge.py: add_cart_header, A8CartHeader.to_array, check_size, AtariCartImage.get_header"]}
{"id": "C95", "title": "The loader for editors agrees with the program", "statement": "What an editor is told about a file agrees with what the commands do with it: if the loader names a kind, the commands work on the same image; if it does not, they report the error for this file; a compressed file is identified as its contents, and a disk written by the program is identified as a disk with its files. The loader never fails.", "quantifier": "every byte string as a file, every command that opens an image, every unpacking of packed data, every consistent disk", "why_tests_cant": "Two entrances to the detection that have to agree on all byte strings.", "anchors": ["atrcopy/omnivore_loader.py: identify_mime", "atrcopy/__init__.py: find_diskimage, find_diskimage_from_data, run"]}
{"id": "C96", "title": "A compressed image is used like the image itself", "statement": "Every command on an image compressed with gzip, bzip2 or lzma prints the same, ends the same way and leaves all other files the same as on the image itself, and what it changes in the image it changes in the same way; the file stays compressed.", "quantifier": "every byte string that unpacks to anything that is not packed again, every command and option, every state of the file system; the image is not itself one of the files to be added or assembled", "why_tests_cant": "All contents, commands and options; the tests only recognise one compressed file of each kind.", "anchors": ["atrcopy/__init__.py: run, find_diskimage, extract_files, add_files, remove_files, assemble, shred_image", "atrcopy/container.py: guess_container, GZipContainer, BZipContainer, LZMAContainer", "atrcopy/diskimages.py: DiskImageBase.save"]}
{"id": "C97", "title": "SpartaDOS disks are used by the commands", "statement": "A SpartaDOS disk on which every file can be read is recognised as one; data whose boot record names a sector or a number of sectors that the data does not have, or an unknown version or sector size, is not. list shows the names of the files in the order of the directory, with checksums those of their contents; extract writes exactly the contents of the wanted files, the first one of a name; adding, deleting and assembling to it are refused and change no file. Deleted files do not matter.", "quantifier": "every disk that follows the SpartaDOS format, with or without an ATR header, every sector size and number of sectors, every directory, file and option, every state of the file system", "why_tests_cant": "All disks, directories and contents; the tests open one SpartaDOS disk and only read its directory.", "anchors": ["atrcopy/__init__.py: run, list_files, crc_files, extract_files, add_files, remove_files, assemble", "atrcopy/spartados.py: SpartaDosDiskImage", "atrcopy/kboot.py: KBootImage.check_sane", "atrcopy/parsers.py: iter_parsers, SpartaDosSegmentParser"]}
{"id": "C98", "title": "What --verbose prints tells how an image was recognised", "statement": "With --verbose the same image is chosen as without it. The program names every type it tries, in the documented order, up to the one that is used, the parser and, if there is one, the refined type; of data that nothing accepts it names every type. From this text and the listing after it the type, the parser and the refined type can be read back, and everything that can be read back from a listing without --verbose.", "quantifier": "every byte string as an image, every image name that does not itself look like one of these lines, every listing of Atari DOS, DOS 3.3 and SpartaDOS disks", "why_tests_cant": "All byte strings and names; no test looks at what is printed.", "anchors": ["atrcopy/__init__.py: run, find_diskimage, find_diskimage_from_data, list_files", "atrcopy/parsers.py: guess_parser_for_mime, guess_parser_by_size, mime_parse_order", "atrcopy/magic.py: guess_detail_for_mime"]}
{"id": "C99", "title": "A disk with and without header is the same disk", "statement": "Putting an ATR header in front of an Atari DOS disk image without one gives the same disk: the new file is the header and then the old bytes, it is opened or refused with the same error as the old one, it has the same files, totals and contents, every sequence of writing, deleting and shredding ends in the same way at every step on both, and afterwards the two still differ only by the header.", "quantifier": "every byte string without a header, of any size, consistent or not; every sequence of operations with any names and contents", "why_tests_cant": "All disks and all sequences of changes, on damaged disks as well.", "anchors": ["atrcopy/ataridos.py: add_atr_header, AtrHeader, XfdHeader, AtariDosDiskImage", "atrcopy/diskimages.py: DiskImageBase.write_file, delete_file, shred, find_file"]}
{"id": "C100", "title": "A file that is no disk is taken for the first kind it is of", "statement": "A file that is neither compressed, nor a known game by its checksum, nor a disk image is taken for the first of these kinds it is of, in the documented order of types: an executable, that is segments one after the other; a cartridge with a header of a known type and then exactly as much data as the type has; a zip file of ROMs with multiples of 16 bytes; an Apple binary whose length word is the number of bytes after it; a ROM of a power of two of bytes. A file of no kind is refused as unsupported.", "quantifier": "every byte string of every length, every content of a zip file", "why_tests_cant": "All byte strings; the tests open a handful of files of two or three of the kinds.", "anchors": ["atrcopy/__init__.py: find_diskimage, find_diskimage_from_data", "atrcopy/parsers.py: iter_parsers, mime_parse_order, MameZipParser, XexSegmentParser, AtariCartSegmentParser, RomParser, Dos33BinSegmentParser", "atrcopy/mame.py: MameZipImage", "atrcopy/cartridge.py: AtariCartImage, RomImage"]}
{"id": "C101", "title": "No sector of a disk is lost or invented", "statement": "Every sector that the map covers and that is free or belongs to a file is so still after any number of writes, deletes and shreds; no sector is free and used, or used by two files. Once all files are deleted the disk is as free as when it was empty; writing a file and deleting it again leaves all as it was. On a disk whose files take as few sectors as they need the free sectors and the sizes of the files in sectors always add up to the same number, so that the room left on a formatted disk depends on its files only. Several files fit together exactly if their sizes in sectors add up to no more than the free sectors, in any order.", "quantifier": "every consistent Atari DOS disk of any geometry and every DOS 3.3 disk, every sequence of writes of non-empty files under names not in use, deletes of files and shreds, successful or refused", "why_tests_cant": "All disks and all sequences of operations of any length.", "anchors": ["atrcopy/ataridos.py: AtariDosDiskImage, AtariDosDirent", "atrcopy/dos33.py: Dos33DiskImage", "atrcopy/diskimages.py: DiskImageBase.write_file, delete_file, shred", "atrcopy/utils.py: VTOC"]}
