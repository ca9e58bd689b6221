(** Command lines as the manual writes them, and what they ask for. *)
From Coq Require Import String.
From Verif Require Import Base CliModel MainModel TextModel ArgModel.

(** How the options are written *)
Definition short_of (k : key) : string :=
  match k with
  | KyHelp => "-h" | KyVerbose => "-v" | KyDry => "--dry-run" | KyForce => "-f" | KyAll => "-a" | KyLower => "-l"
  | KyExt => "-e" | KyDir => "-d" | KyText => "-t" | KyType => "-t" | KySegs => "-g" | KyMeta => "-m" | KyCrc => "-c"
  | KyAsm => "-s" | KyData => "-d" | KyObj => "-b" | KyRun => "-r" | KyOutput => "-o" | KyClear => "-e"
  end.
Definition long_of (k : key) : string :=
  match k with
  | KyHelp => "--help" | KyVerbose => "--verbose" | KyDry => "--dry-run" | KyForce => "--force" | KyAll => "--all"
  | KyLower => "--lower" | KyExt => "--ext" | KyDir => "--dir" | KyText => "--text" | KyType => "--filetype"
  | KySegs => "--segments" | KyMeta => "--metadata" | KyCrc => "--crc" | KyAsm => "--asm" | KyData => "--data"
  | KyObj => "--obj" | KyRun => "--run-addr" | KyOutput => "--output" | KyClear => "--clear-empty"
  end.
(** How many words they take: none, one, any number *)
Definition takes (k : key) : arity :=
  match k with
  | KyExt | KyDir | KyType | KyRun | KyOutput => A1
  | KyAsm | KyData | KyObj => AStar
  | _ => A0
  end.
(** The options of each command *)
Definition allowed (v : verb) : list key :=
  match v with
  | VList => [KySegs; KyMeta; KyCrc]
  | VCrc | VSegments => []
  | VExtract => [KyAll; KyLower; KyExt; KyDir; KyText; KyForce]
  | VAdd => [KyForce; KyType]
  | VCreate | VDelete => [KyForce]
  | VBoot => [KyForce; KyAsm; KyData; KyObj; KyRun]
  | VAssemble => [KyForce; KyAsm; KyData; KyObj; KyRun; KyOutput]
  | VVtoc => [KyClear]
  end.
(** The names of the commands *)
Definition names_of (v : verb) : list string :=
  match v with
  | VList => ["list"; "t"; "ls"; "dir"; "catalog"] | VCrc => ["crc"] | VExtract => ["extract"; "x"] | VAdd => ["add"; "a"]
  | VCreate => ["create"; "c"] | VBoot => ["boot"; "b"] | VAssemble => ["assemble"; "s"; "asm"]
  | VDelete => ["delete"; "rm"; "del"] | VVtoc => ["vtoc"; "v"] | VSegments => ["segments"]
  end%string.

(** Words that do not look like options *)
Definition plain (a : list Z) : Prop := forall r, a <> 45 :: r.

(** An option with its words: -d x, --dir x or --dir=x *)
Inductive spelling := SShort | SLong | SJoined.
Record item := mkItem { i_key : key; i_spelling : spelling; i_words : list (list Z) }.
Definition item_args (i : item) : list (list Z) :=
  match i_spelling i with
  | SShort => txt (short_of (i_key i)) :: i_words i
  | SLong => txt (long_of (i_key i)) :: i_words i
  | SJoined => [txt (long_of (i_key i)) ++ 61 :: List.concat (i_words i)]
  end.
Definition item_ok (v : verb) (i : item) : Prop :=
  In (i_key i) (allowed v) /\
  match takes (i_key i) with
  | A0 => i_words i = [] /\ i_spelling i <> SJoined
  | A1 => exists a, i_words i = [a] /\ (i_spelling i <> SJoined -> plain a)
  | AStar => Forall plain (i_words i) /\ i_spelling i <> SJoined
  end.
(** -v, --verbose and --dry-run *)
Inductive global := GVerbose (long : bool) | GDry.
Definition global_arg (g : global) : list Z :=
  match g with GVerbose true => txt "--verbose" | GVerbose false => txt "-v" | GDry => txt "--dry-run" end.

(** A command line: the image among the global options, the command, and its files with
    options before and after them *)
Record line := mkLine {
  l_pre : list global; l_img : list Z; l_mid : list global;
  l_verb : verb; l_word : string;
  l_before : list item; l_files : list (list Z); l_after : list item }.
Definition line_args (l : line) : list (list Z) :=
  map global_arg (l_pre l) ++ l_img l :: map global_arg (l_mid l) ++ txt (l_word l) ::
  flat_map item_args (l_before l) ++ l_files l ++ flat_map item_args (l_after l).
Definition items (l : line) : list item := l_before l ++ l_after l.
Definition files_ok (v : verb) (files : list (list Z)) : Prop :=
  match v with
  | VList | VCrc | VExtract => True
  | VAdd | VDelete => files <> []
  | VCreate => exists t, files = [t]
  | _ => files = []
  end.
Definition line_ok (l : line) : Prop :=
  plain (l_img l) /\ In (l_word l) (names_of (l_verb l)) /\
  Forall (item_ok (l_verb l)) (items l) /\ Forall plain (l_files l) /\ files_ok (l_verb l) (l_files l) /\
  (l_verb l = VAssemble -> exists i, In i (items l) /\ i_key i = KyOutput).

(** What is asked for *)
Definition has_key (k : key) (i : item) : bool := key_eqb (i_key i) k.
Definition given (k : key) (l : line) : bool := existsb (has_key k) (items l).
(** The word of the last such option *)
Definition last_word (k : key) (l : line) : list Z := List.last (flat_map i_words (filter (has_key k) (items l))) [].
(** The words of all such options *)
Definition all_words (k : key) (l : line) : list (list Z) := flat_map i_words (filter (has_key k) (items l)).
Definition dry_asked (l : line) : bool := existsb (fun g => match g with GDry => true | _ => false end) (l_pre l ++ l_mid l).
Definition verbosity (l : line) : Z := zlen (filter (fun g => match g with GDry => false | _ => true end) (l_pre l ++ l_mid l)).
Definition asked_opts (l : line) : opts :=
  mkO (given KyForce l) (dry_asked l) (given KyLower l) (given KyText l) (given KyAll l)
      (match last_word KyDir l with [] => None | d => Some d end) (last_word KyType l).
Definition asked_cmd (l : line) : cmd :=
  match l_verb l with
  | VList => KList (given KyCrc l) (l_files l)
  | VCrc => KCrc (l_files l)
  | VExtract => KExtract (l_files l)
  | VAdd => KAdd (l_files l)
  | VCreate => KCreate (List.concat (l_files l))
  | VBoot => KBoot (all_words KyAsm l) (all_words KyData l) (all_words KyObj l) (last_word KyRun l)
  | VAssemble => KAssemble (all_words KyAsm l) (all_words KyData l) (all_words KyObj l) (last_word KyRun l) (last_word KyOutput l)
  | VDelete => KDelete (l_files l)
  | VVtoc => KVtoc (given KyClear l)
  | VSegments => KSegments
  end.
(** -s, -d and -b at most once each *)
Definition once (l : line) : Prop :=
  forall k, takes k = AStar -> (List.length (filter (has_key k) (items l)) <= 1)%nat.
