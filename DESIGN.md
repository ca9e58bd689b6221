# Design: a Rocq model of atrcopy

This document says what is modelled, how each property of `properties.jsonl`
is stated and proved, what the proofs rest on, and what was found on the way.

## Method

* The Python code is modelled by small, total, computable Gallina functions that
  follow the code branch by branch.  Every definition cites the file and lines
  it models.  Simplifications are named in the comment of the definition.
* Python exceptions are values: `res A := Ok a | Err e`, where `e` distinguishes
  the library's own errors (`errors.AtrError` subclasses) from the built-in ones
  (`IndexError`, `ValueError`, `NameError`, `ZeroDivisionError`, ...), because
  the code only rolls back and only skips parsers on the former.
* Mutation is modelled by state passing.  An operation returns the new image
  *also when it raises*: `image -> image * res A`.
* NumPy aliasing is modelled.  `arr[a:b]` is a view, so `begin_transaction` keeps
  a view of the live image, and `VTOC.calc_bitmap` writes into the image.
* Loops are structural recursion where the code iterates over data, and explicit
  fuel with a dedicated `EFuel` error value where the code follows pointers found
  on the disk.  Theorems exclude `EFuel` or prove it cannot happen.
* NumPy version: the code calls `np.alen`, removed in NumPy 1.23, so NumPy < 1.23
  semantics apply: arithmetic of a uint8 scalar with a Python int does not wrap;
  storing an out-of-range integer into a uint8/uint16 cell wraps silently.

## Files (rocq/theories)

Names: `*Model*.v` hold the model and nothing else (one comment with file and
lines per definition), `*Spec.v` small independent specifications used in theorem
statements, `Properties_*.v` the property theorems with their examples and
`Print Assumptions`.  All other files are lemmas.

| files | code modelled | properties |
|---|---|---|
| `Base`, `BaseLemmas`, `Loops` | bytes, slices, words, results; loop lemmas | |
| `DiskModel`, `DirLemmas` | `utils.py` sectors, directories, VTOC; `diskimages.py` | |
| `Atari*`, `Properties_Atari*`, `Properties_MyDos` | `ataridos.py` (disks) | C01-C15, C47-C53 |
| `Dos33*`, `Properties_Dos33`, `Properties_Entry3` | `dos33.py` (disks) | C07, C10, C13, C14, C16-C22, C50 |
| `Exec*`, `Properties_Exec` | `executables.py`, `AtariDosFile`, `Dos33BinFile`, `kboot.py` | C23-C27 |
| `Seg*`, `Properties_Seg*` | `segments.py` | C28-C37, C46, C54-C58, C71, C72, C91, C92 |
| `Cli*`, `Properties_Cli` | `__init__.py`, `text_to_int` | C39, C40, C44, C59-C63 |
| `Cart*`, `Properties_Cart` | `cartridge.py` | C38, C64, C65 |
| `Sparta*`, `Properties_Sparta` | `spartados.py` | C10, C41, C66, C67 |
| `Main*`, `DetectExec`, `Properties_Main*` | `__init__.run`, `assemble`, `dummy.py`, the commands on every kind of image | C73-C78, C80 |
| `Templ*`, `Properties_Templ` | the disk images in `templates/`, `create` | C79 |
| `Sd*`, `Properties_Sd` | `standard_delivery.py`, `fstbt.py` | C43, C68 |
| `CpuModel`, `AppleSpec`, `AppleBoot`, `Properties_Boot*` | the machine code in `fstbt.py`, run on a 6502 | C81 |
| `KbSpec`, `KbBoot`, `Properties_Kb`, `Properties_Kb2` | the machine code in `kboot.py`, run on the same 6502 | C82 |
| `MainCopy`, `Properties_Copy` | several files at once through `main`, from one disk to another | C83 |
| `Edit*`, `Properties_Edit` | files as segments: `get_file_segment` of `ataridos.py` and `dos33.py`, assignments through them | C84 |
| `Text*`, `Properties_Text*` | what `list`, `crc` and `vtoc` print: `__str__`, `summary`, `str_timestamp` | C85, C86 |
| `PackedProofs`, `Properties_Packed` | the commands on compressed images | C96 |
| `VerboseModel`, `Properties_Verbose` | the lines of `--verbose`: `find_diskimage`, `find_diskimage_from_data`, `menu_name` of the parsers | C98 |
| `SpartaWhole`, `Properties_Sparta2`, `Properties_SpartaBoot` | the commands on SpartaDOS disks | C97 |
| `Properties_SpartaMap` | the map of free sectors that `vtoc` prints of a SpartaDOS disk | C86 |
| `LoaderModel`, `Properties_Loader` | `add_cart_header`, `check_size`; `omnivore_loader.py` | C94, C95 |
| `MetaModel`, `Properties_Meta` | `list --metadata`: `extra_metadata`, `verbose_info` | C93 |
| `Arg*`, `Properties_Arg` | the command line: `__init__.run` with the parts of argparse it uses | C87 |
| `SegList*`, `Properties_SegList*` | the segments of an image and what `segments` prints: `parse_segments` of every format | C88 |
| `SegSave*`, `Properties_SegSave` | saving and restoring a parser with its segments | C89 |
| `AtariWrap`, `Properties_Wrap` | the same disk with and without an ATR header | C99 |
| `AtariBalance`, `Properties_Balance`, `Properties_Balance3`, `Properties_Balance4` | no sector is lost or invented | C101 |
| `Properties_Table` | what a file that is no disk image is taken for | C100 |
| `Obj*`, `SegListTotal`, `Properties_Obj*` | any image as object file of `assemble` and `boot`; the `segments` command | C90 |
| `Detect*`, `Properties_Detect*` | `parsers.py`, `container.py`, `dcm.py`, `magic.py`, `mame.py`, `signatures.py`, the opening code of every format | C42, C45, C69, C70 |

## Plan per property

Atari DOS (C01-C09, C11-C15, C47, C48): model `AtrHeader`, `AtariDosDirent`,
`AtariDosVTOC`, `Directory`, `DiskImageBase.write_file/delete_file/shred`.  A
consistency predicate `wf` on images (valid geometry, sane directory, chains
readable, disjoint, disjoint from the free map and from the system sectors) is
shown to hold of a formatted disk and to be preserved by every operation.  The
operations are then related to a map from names to contents (refinement), giving
C01-C06 and C08 as corollaries; C07 by induction over the sector iterator; C11,
C13, C14 by arithmetic and codec lemmas.

DOS 3.3 (C16-C22): same architecture with `Dos33VTOC`, `Dos33TSSector`,
`Dos33Dirent`, catalog chain.

C10: fuel functions; Atari DOS by a pigeonhole argument on `sectors_seen`;
cyclic witnesses for the formats without cycle detection.

Executables (C23-C25), boot images (C26, C27, C43), segments (C28-C37, C46),
cartridges (C38), command line (C39, C40), SpartaDOS (C41), opening arbitrary
data (C42), number parsing (C44), format detection (C45): one model file and
one proof file each; induction over the segment/style/argument lists.

Every property can be expressed in the model.  Properties that the code violates
are kept as stated; the violation is a theorem `..._refuted` with a concrete
witness, and the strongest true variant is proved next to it.

## Trusted base

* The Coq 8.16.1 kernel, including its virtual machine (`vm_compute` is used for
  examples and for finite case checks).
* The Coq standard library.  No axiom of it is used: `Print Assumptions` is run
  after every property theorem and answers `Closed under the global context` for
  each of them.  `vcheck` lists seven constants of `Coq.ssr.ssrunder`
  (`Under_rel.*`).  They belong to a module type of Coq's own ssreflect files
  that gets loaded with the standard library.  No theorem here depends on them.
* The model is written by hand.  That it says what the Python code does under
  NumPy < 1.23 is not proved; it is checked by reading, and every definition
  cites the lines it models so that this can be repeated.
* Library functions outside the repository are parameters of the model, and the
  theorems hold for every value of them: `gzip`, `bz2`, `lzma` and `zipfile`
  (a function from bytes to unpacked bytes or an error), SHA-1, `crc32`
  (`Section Variable`s or record fields, never axioms).  The file system of the
  command line is a list of names and contents.

* For C81: `CpuModel.v` (the 6502 instructions the loader uses) and `AppleSpec.v` (the
  stepper motor of the drive, the screen switches, and the effect of three ROM
  routines: read a sector, wait, shift a nibble) are written from the documentation
  of the hardware, not from the repository.
* For C82: `KbSpec.v` (the disk routine of the Atari's operating system at $E459, the
  memory it uses, and the state in which it enters the boot sectors), likewise.  The
  loader is run without interrupts.

### What is modelled

Every function of these files that computes or changes data, with the exceptions
listed below: `ataridos.py`, `cartridge.py`, `container.py`, `dcm.py`,
`diskimages.py`, `dos33.py`, `executables.py`, `kboot.py`, `magic.py`, `mame.py`,
`parsers.py`, `segments.py`, `spartados.py`, `standard_delivery.py`, `utils.py`
`dummy.py` and `__init__.py` (all commands, and the program as a whole: a function
from the words of the command line and local files to local files, messages and result).  The
assembler `pyatasm` is a parameter.  The signature table, the table of cartridge
types and the seven disk image templates are copied into the model byte for byte.

### What is not modelled

* Text shown to the user other than that of `list`, `list --crc`, `list --metadata`, `crc`
  and `vtoc`: `verbose_info` of segments, log messages (the lines of `segments` are `seg_text`).
* In command lines: an argument that is just two dashes, and the texts of help and usage
  errors; and `process`.
* The part of the KBoot boot sectors that is not reached while loading (the title
  shown on the screen).
* `AtariDosDiskImage.as_new_format`, which no command uses.  It hands a `SegmentData`
  to `add_atr_header`; how NumPy copies such an object is not modelled (by reading, it
  asks for its first element, and `to_numpy` answers with TypeError).  `add_atr_header` itself is (C99).
* `utils.uuid`, class properties that only name another
  class.
* Memory limits, the speed of anything, threads, and operating system errors.
* Python integers are `Z`; bytes are `Z` in 0..255 where the theorem says
  `bytes_ok`.

## Findings

Each finding is a theorem about the model with a concrete witness or for all
inputs.  Names ending in `_refuted` show that a property of `properties.jsonl`
is false as stated.

Atari DOS 2
* A write that fails is not rolled back: `begin_transaction` keeps a view of the
  live image.  Writing an empty file ends in an exception after the image was
  changed (`C05_empty_file_refuted`).
* The 65th file is written over sector 369 (`C09_full_directory_refuted`).
* Deleted entries are found by name (`C03_unlisted_name_not_found_refuted`), and a
  second file of the same name hides behind the first (`C01_duplicate_name_refuted`).
* A file without payload reads as the whole image (`C15_empty_file_refuted`).
* MyDOS chains with a cycle are never left (`C10_mydos_loop_refuted`).
* Deleting the name of a deleted MyDOS file follows its old links without any
  check and frees sectors that a later file took over, so that the next write
  destroys that file (`C04_mydos_name_deleted_twice_refuted`).
* The three boot sectors of a 183936-byte image overlap
  (`C11_boot_sectors_overlap_refuted`); sectors of more than 258 bytes store the
  byte count modulo 256 (`C47_wide_sectors_refuted`).
* The free count in the VTOC is never updated (`C48_reported_free_count_refuted`).
* Flag bit 3 and names ending in NUL do not survive a rewrite of the directory
  (`C13_flag_bit_lost_refuted`, `C13_nul_name_lost_refuted`).

DOS 3.3
* A refused write leaks sectors (`C20_dos33_refused_write_leaks_refuted`).
* Every write unlocks all files (`C17_dos33_lock_lost_refuted`).
* Files of type T vanish (`C21_dos33_text_file_vanishes_refuted`).
* The last catalog sector is never used (`C22_dos33_last_catalog_sector_refuted`).
* Deleting a deleted name again frees sectors of other files
  (`C18_dos33_double_delete_frees_used_sectors_refuted`).
* Cyclic lists and catalogs are never left (`C10_dos33_*_refuted`).

SpartaDOS
* Files whose map is full raise IndexError (`C41_full_map_refuted`), files of 0 or
  of 2^23 and more bytes read as the whole disk (`C41_length_refuted`).
* Map cycles are never left (`C10_sparta_refuted`).
* Shredding wipes files, the bitmap being read ten bytes too late
  (`C67_shred_refuted`), and `vtoc` shows sectors in use as free
  (`C86_sparta_refuted`).
* A deleted entry shadows a file of the same name (`C66_deleted_shadows_refuted`).

Executables and boot disks
* `C23_last_address_refuted`, `C23_empty_segment_refuted`: segments at 65535 and
  empty ones are misread.
* `C24_truncated_position_refuted`, `C24_short_header_position_refuted`: the last,
  cut-off piece is reported at a wrong position.
* `C25_whole_memory_refuted`: 65536 bytes are stored with length 0.
* `C26_large_executable_refuted`: KBoot images of 65536 bytes and more are refused.
* `C27_run_address_ignored_refuted`: the run address is not used.
* `C82_over_loader_refuted`: a segment over the loader ($0700-$087F) stops it.
* `C82_start_lost_refuted`, `C82_large_refuted`: an Atari boot disk starts at its first
  segment whatever start address was given; of 65536 bytes and more the loader reads
  only the excess over 65536, and starts the program all the same.
* `C81_screen_order_refuted`: if a program shows the second hi-res screen and then, for
  the first time, the first one, the computer goes on showing the second.
* `C43_*_refuted`: Standard Delivery disks of programs that share pages, start at
  $2001, or use pages from $C0 on are loaded wrongly.

Segments
* `C30_clear_data_refuted`, `C30_clear_user_refuted`: clearing by kind.
* `C31_find_previous_refuted`, `C33_corner_order_refuted`, `C28_reverse_refuted`.
* `C35_user_data_refuted`, `C36_empty_refuted`, `C37_indexed_refuted`,
  `C55_indexed_refuted`: what is lost or refused for saved and indexed segments.
* `C46_double_density_refuted`: labels of VTOC and directory views.
* `C71_again_refuted`, `C71_shrink_refuted`: a container can be resized only once,
  and never be made smaller.
* `C72_get_refuted`: comments set at indexes are not reported at these indexes.

Command line
* `C39_last_skipped_refuted`, `C39_long_name_refuted`: added files that are lost.
* `C59_escapes_dir_refuted`: an absolute name is extracted outside the directory.
* `C60_locked_refuted`: locked files are deleted without `--force`.
* `C61_documented_names_refuted`: the documented template names are ambiguous.
* `C62_force_and_dry_run_refuted`, `C63_bad_bounds_refuted`.
* `C73_address_zero_refuted`, `C73_padded_bsave_refuted`,
  `C73_unreadable_address_refuted`: object files whose segments or run address are
  lost; a BSAVE file that was kept on a DOS 3.3 disk is taken for a ROM image.
* `C90_dos33_binary_refuted`: a DOS 3.3 disk with a program cannot be an object file;
  `assemble` and `boot` end in TypeError.
* `C90_kboot_refuted`, `C90_rom_refuted`, `C90_mame_refuted`: a KBoot disk given as
  object file has its program loaded to a wrong address; a ROM and the first member of
  a zip file are left out.
* `C75_dry_boot_refuted`: `boot` writes with `--dry-run`.
* `C75_extract_over_the_image_refuted`: `extract --force` of a file named like the
  image file destroys the image.
* `C75_local_delete_refuted`: `delete` on the current directory only says that it
  removes files.
* `C77_no_start_address_refuted`: `boot` to a `.dsk` raises TypeError if no start
  address is known (with an unreadable `-r` it works).
* `C77_atari_start_ignored_refuted`: `boot` to an `.atr` ignores the start address.
* `C80_add_without_type_refuted`, `C80_extract_refuted`: `add` to the current
  directory without `--filetype`, and `extract` from it, raise AttributeError.
* `C80_assembled_no_extension_refuted`: assembling into the current directory works only
  for names ending in xex, bin or bsave.
* `C86_large_disks_refuted`: the sectors from 720 on are not shown by `vtoc` and not
  counted as free, although the disk has a second table for them.
* In the model, without a theorem: commands on executables opened as images end in
  AttributeError; add and delete on KBoot images in TypeError; add, vtoc and shred on
  boot disks and unidentified data in IndexError; most commands on cartridges in
  AttributeError.

Recognition
* `C42_*_refuted`: kinds of files on which detection ends with IndexError,
  ZeroDivisionError, TypeError, NameError, AttributeError or ValueError, or never
  ends.
* `C65_empty_refuted`: an empty file is a ROM image.
* `C70_starpath_refuted`: no Starpath image is ever recognised.

Editing
* `C84_empty_file_refuted`: the segment of an Atari file without bytes is the whole
  image, so that edits meant for it go to the boot sectors.

Listings
* `C85_crc_refuted`: a file name on a DOS 3.3 disk can have a line break, and then the
  output of `crc` for one file can be that of two.
* `vtoc` shows 40 rows of 18 sectors whatever the size of the Atari disk: of disks
  with more than 720 sectors the rest is not shown, and the free sectors in the second
  VTOC of enhanced density disks are not counted.
* The columns of `list` shift for sector numbers above 999.  All DOS 3.3 types the
  program does not know are shown as `?`.

The command line
* `C87_repeated_refuted`: of several `-s`, `-d` or `-b` options only the first is used.
* `C87_help_refuted`: `atrcopy D.ATR --help` raises IndexError.
* `C87_no_effect_refuted`: `extract --ext`, `list --segments` and `delete --force` do
  nothing.

Lists of segments
* `C88_boot_sectors_refuted`: boot sectors of Atari DOS disks are looked for in the VTOC
  (sector 360) instead of sector 1, so that DOS 2 disks never show them.
* `C88_sparta_boot_refuted`: the boot header of a SpartaDOS disk is listed twice, the
  segment of all boot sectors is made but not listed.
* `C88_comment_mark_refuted`: comments made while listing do not set the style bit of
  comments, by which comments are searched.
* The comments on DOS 3.3 catalog entries call the track and sector of the file those of
  the next catalog sector (`entry_fields3`).  A type B file loaded below address 4 gets
  a negative origin (`origin3`).  The origin of a KBoot executable is its place in the
  image file (`C88_kboot_list`).
* `C89_again_refuted`, `C89_raw_refuted`: the segments of a parser can be put on other
  data only once after it was loaded (AttributeError otherwise); the parser of raw data
  has no image class, so that restoring it calls None (TypeError).
* `C89_catalog_refuted`: an empty selection is saved as an empty list, which is taken for
  no selection: a DOS 3.3 catalog without sectors comes back as the whole disk.
* `C88_trace_refuted`: a file refused as an executable because of its addresses keeps the
  styles set for it, and shows them when another format takes it.
* `C89_mame_refuted`: the saved positions of the segments of a MAME file are those in the
  unpacked data, but are used on the zip file.

* `C91_outside_refuted`: an address outside a segment leads to a byte of something else;
  `C91_parallel_refuted`: the parallel data of a selection fail with AttributeError.
* `C92_stale_refuted`: the copy used for searching is not renewed when the bytes are
  changed through another segment.
* `C93_next_refuted`: the link shown with the sectors of a DOS 3.3 track/sector list is
  always 0.
* `C94_refused_refuted`: the header made for bare cartridge data has no type, so nothing
  accepts the result; `C94_possible_refuted`: the kinds offered for a size are looked up by
  type.
* `C95_fails_refuted`: the loader for editors fails on data on which a parser fails.
* `C96_unpacked_refuted`: a changed compressed image is saved without compression under
  the same name.
* `C97_chance_refuted`: a SpartaDOS disk of 1028 sectors is taken for a boot disk, because
  its directory and its size happen to be in the place of the size of a program;
  `C97_deleted_refuted`: deleted files are listed and extracted with --all;
  `C97_reused_refuted`: an overwritten map of a deleted file makes detection fail.

Seen while modelling, without a theorem of their own: `errors.NotImplementedError`
does not exist; `as_new_format` always fails; `parsers_for_filename` raises for
every unknown extension; cartridge type 59 has one field too few;
executables on Atari disks never get segments of
their own because `get_file_segments` does not parse them; `StandardDeliveryHeader.__str__` has four values for
three places and raises TypeError; the verbose summary prints `(mime}`.

## Wrong programs

`seeded/LOG.jsonl` lists edits of the model that make a claim false, the theorems
that failed and the theorems that were tightened as a result.
