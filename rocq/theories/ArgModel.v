(** The command line: from the words after the name of the program to the command that is
    run.  __init__.py 410-607; argparse is modelled as far as this program uses it.

    Simplifications: an argument that is exactly two dashes is not modelled (its meaning
    changed between versions of Python), and neither are the texts of help and errors.
    A word is a list of character codes. *)
From Coq Require Import String.
From Verif Require Import Base CliModel MainModel TextModel.

(** * The commands: lines 444-458 *)
Inductive verb := VList | VCrc | VExtract | VAdd | VCreate | VBoot | VAssemble | VDelete | VVtoc | VSegments.
Definition reverse_aliases : list (list Z * verb) :=
  [(txt "t", VList); (txt "ls", VList); (txt "dir", VList); (txt "catalog", VList); (txt "list", VList);
   (txt "crc", VCrc);
   (txt "x", VExtract); (txt "extract", VExtract);
   (txt "a", VAdd); (txt "add", VAdd);
   (txt "c", VCreate); (txt "create", VCreate);
   (txt "b", VBoot); (txt "boot", VBoot);
   (txt "s", VAssemble); (txt "asm", VAssemble); (txt "assemble", VAssemble);
   (txt "rm", VDelete); (txt "del", VDelete); (txt "delete", VDelete);
   (txt "v", VVtoc); (txt "vtoc", VVtoc);
   (txt "segments", VSegments)].
Fixpoint lookup {A} (k : list Z) (l : list (list Z * A)) : option A :=
  match l with [] => None | (x, a) :: r => if zlist_eqb k x then Some a else lookup k r end.

(** * The options: lines 468-544 *)
Inductive key := KyHelp | KyVerbose | KyDry | KyForce | KyAll | KyLower | KyExt | KyDir | KyText | KyType
  | KySegs | KyMeta | KyCrc | KyAsm | KyData | KyObj | KyRun | KyOutput | KyClear.
(** store_true, count and help take nothing; store and nargs=1 one word; nargs="*" any number *)
Inductive arity := A0 | A1 | AStar.
Definition option1 := (list Z * (key * arity))%type.
Definition both (short long : string) (k : key) (a : arity) : list option1 := [(txt short, (k, a)); (txt long, (k, a))].
Definition help_options : list option1 := both "-h" "--help" KyHelp A0.
Definition force_options : list option1 := both "-f" "--force" KyForce A0.
Definition main_options : list option1 :=
  help_options ++ both "-v" "--verbose" KyVerbose A0 ++ [(txt "--dry-run", (KyDry, A0))].
Definition source_options : list option1 :=
  force_options ++ both "-s" "--asm" KyAsm AStar ++ both "-d" "--data" KyData AStar ++
  both "-b" "--obj" KyObj AStar ++ [(txt "--bload", (KyObj, AStar))] ++
  both "-r" "--run-addr" KyRun A1 ++ [(txt "--brun", (KyRun, A1))].
Definition options_of (v : verb) : list option1 :=
  help_options ++
  match v with
  | VList => both "-g" "--segments" KySegs A0 ++ both "-m" "--metadata" KyMeta A0 ++ both "-c" "--crc" KyCrc A0
  | VExtract => both "-a" "--all" KyAll A0 ++ both "-l" "--lower" KyLower A0 ++ both "-e" "--ext" KyExt A1 ++
                both "-d" "--dir" KyDir A1 ++ both "-t" "--text" KyText A0 ++ force_options
  | VAdd => force_options ++ both "-t" "--filetype" KyType A1
  | VCreate | VDelete => force_options
  | VAssemble => source_options ++ both "-o" "--output" KyOutput A1
  | VBoot => source_options
  | VVtoc => both "-e" "--clear-empty" KyClear A0
  | VCrc | VSegments => []
  end.
(** The positional arguments: nargs "*", "+", 1, or none *)
Inductive places := PStar | PPlus | POne | PNone.
Definition places_of (v : verb) : places :=
  match v with
  | VList | VCrc | VExtract => PStar
  | VAdd | VDelete => PPlus
  | VCreate => POne
  | VAssemble | VBoot | VVtoc | VSegments => PNone
  end.

(** * argparse *)
Definition dashed (a : list Z) : bool := match a with 45 :: _ => true | _ => false end.
Fixpoint prefix (p s : list Z) : bool :=
  match p, s with
  | [], _ => true
  | x :: p', y :: s' => (x =? y) && prefix p' s'
  | _, _ => false
  end.
(** str.split("=", 1), None without "=" *)
Fixpoint split_eq (a : list Z) : option (list Z * list Z) :=
  match a with
  | [] => None
  | 61 :: r => Some ([], r)
  | x :: r => match split_eq r with Some (b, c) => Some (x :: b, c) | None => None end
  end.
Definition digit (c : Z) : bool := (48 <=? c) && (c <=? 57).
Definition all_digits (l : list Z) : bool := forallb digit l.
Fixpoint after_digits (l : list Z) : list Z :=
  match l with x :: r => if digit x then after_digits r else l | [] => [] end.
(** The expression -\d+ or -\d*\.\d+ *)
Definition negative_number (a : list Z) : bool :=
  match a with
  | 45 :: r => (negb (zlist_eqb r []) && all_digits r) ||
               match after_digits r with 46 :: d => negb (zlist_eqb d []) && all_digits d | _ => false end
  | _ => false
  end.
(** _parse_optional and _get_option_tuples: what kind of argument a word is *)
Inductive kind :=
| CArg                                                (* not an option *)
| COpt (name : list Z) (o : key * arity) (explicit : option (list Z))
| CUnknown
| CAmbiguous.
Definition candidates (opts : list option1) (a : list Z) : list kind :=
  match a with
  | 45 :: 45 :: _ =>
      let (p, e) := match split_eq a with Some (b, c) => (b, Some c) | None => (a, None) end in
      map (fun o => COpt (fst o) (snd o) e) (filter (fun o => prefix p (fst o)) opts)
  | _ =>
      map (fun o => if zlist_eqb (fst o) (slice a 0 2) then COpt (fst o) (snd o) (Some (slice a 2 (zlen a))) else COpt (fst o) (snd o) None)
          (filter (fun o => zlist_eqb (fst o) (slice a 0 2) || prefix a (fst o)) opts)
  end.
Definition exact_eq (opts : list option1) (a : list Z) : option kind :=
  match split_eq a with
  | Some (b, c) => match lookup b opts with Some o => Some (COpt b o (Some c)) | None => None end
  | None => None
  end.
Definition classify (opts : list option1) (a : list Z) : kind :=
  if negb (dashed a) then CArg
  else match lookup a opts with
  | Some o => COpt a o None
  | None =>
      if zlen a =? 1 then CArg
      else match exact_eq opts a with
      | Some c => c
      | None =>
          match candidates opts a with
          | [c] => c
          | _ :: _ :: _ => CAmbiguous
          | [] => if negative_number a || zmem 32 a then CArg else CUnknown
          end
      end
  end.

(** What comes out of parsing: the options seen in order, with their words, and the
    positional words; or help (which ends the program), or an error. *)
Inductive parsed (A : Type) := PHelp | PError | POk (a : A).
Arguments PHelp {A}. Arguments PError {A}. Arguments POk {A}.
Definition event := (key * list (list Z))%type.
(** The words that are not options, up to the next option *)
Fixpoint args_run (l : list (list Z * kind)) : list (list Z) * list (list Z * kind) :=
  match l with
  | (a, CArg) :: r => let (x, y) := args_run r in (a :: x, y)
  | _ => ([], l)
  end.
(** consume_optional, the part without an explicit argument *)
Definition take_words (o : key * arity) (r : list (list Z * kind)) : parsed (event * list (list Z * kind)) :=
  match snd o with
  | A0 => match fst o with KyHelp => PHelp | k => POk ((k, []), r) end
  | A1 => match r with (a, CArg) :: r' => POk ((fst o, [a]), r') | _ => PError end
  | AStar => let (x, y) := args_run r in POk ((fst o, x), y)
  end.
(** consume_optional with the explicit argument [e]: flags written together, or a value *)
Fixpoint take_explicit (opts : list option1) (name : list Z) (o : key * arity) (e : list Z) (r : list (list Z * kind))
  : parsed (list event * list (list Z * kind)) :=
  match snd o with
  | A0 =>
      match name, e with
      | _ :: 45 :: _, _ => PError
      | _, [] => PError
      | _, c :: e' =>
          match lookup [45; c] opts with
          | None => PError
          | Some o' =>
              (* the actions are run after all of them have been recognised *)
              match (match e' with
                     | [] => match take_words o' r with PHelp => PHelp | PError => PError | POk (v, r') => POk ([v], r') end
                     | _ => take_explicit opts [45; c] o' e' r
                     end) with
              | POk (vs, r') => match fst o with KyHelp => PHelp | k => POk ((k, []) :: vs, r') end
              | PError => PError
              | PHelp => PHelp
              end
          end
      end
  | A1 | AStar => POk ([(fst o, [e])], r)
  end.
Definition take_option (opts : list option1) (name : list Z) (o : key * arity) (e : option (list Z)) (r : list (list Z * kind))
  : parsed (list event * list (list Z * kind)) :=
  match e with
  | None => match take_words o r with PHelp => PHelp | PError => PError | POk (v, r') => POk ([v], r') end
  | Some e => take_explicit opts name o e r
  end.
(** _parse_known_args of the parser of a command, followed by the error for words left over.
    [fs] is what the positional argument got so far. *)
Fixpoint parse_sub (fuel : nat) (opts : list option1) (p : places) (l : list (list Z * kind)) (ev : list event) (fs : list (list Z)) (extra : bool)
  : parsed (list event * list (list Z)) :=
  match fuel with
  | O => PError
  | S fuel =>
      match l with
      | [] => match p with
              | PPlus | POne => PError
              | _ => if extra then PError else POk (ev, fs)
              end
      | (a, CArg) :: r =>
          let (x, y) := args_run l in
          match p with
          | PStar | PPlus => parse_sub fuel opts PNone y ev x extra
          | POne => parse_sub fuel opts PNone y ev [a] (extra || negb (zlen x =? 1))
          | PNone => parse_sub fuel opts PNone y ev fs true
          end
      | (a, CUnknown) :: r => parse_sub fuel opts p r ev fs true
      | (a, CAmbiguous) :: r => PError
      | (a, COpt name o e) :: r =>
          match take_option opts name o e r with
          | PHelp => PHelp
          | PError => PError
          | POk (vs, r') => parse_sub fuel opts p r' (ev ++ vs) fs extra
          end
      end
  end.
Definition ambiguous (l : list (list Z * kind)) : bool := existsb (fun c => match snd c with CAmbiguous => true | _ => false end) l.
Definition classes (opts : list option1) (l : list (list Z)) : list (list Z * kind) := map (fun a => (a, classify opts a)) l.
(** parse_args of the parser of a command *)
Definition run_sub (v : verb) (l : list (list Z)) : parsed (list event * list (list Z)) :=
  let c := classes (options_of v) l in
  if ambiguous c then PError
  else match parse_sub (S (List.length l)) (options_of v) (places_of v) c [] [] false with
  | POk (ev, fs) =>
      match v with
      | VAssemble => if existsb (fun e => match fst e with KyOutput => true | _ => false end) ev then POk (ev, fs) else PError
      | _ => POk (ev, fs)
      end
  | r => r
  end.
(** parse_args of the main parser: options up to the name of the command.  Without a command
    reverse_aliases[None] would raise KeyError: [POk None]. *)
Fixpoint parse_main (fuel : nat) (l : list (list Z * kind)) (ev : list event) (extra : bool)
  : parsed (option (verb * list event * list event * list (list Z))) :=
  match fuel with
  | O => PError
  | S fuel =>
      match l with
      | [] => if extra then PError else POk None
      | (a, CArg) :: r =>
          match lookup a reverse_aliases with
          | None => PError
          | Some v => match run_sub v (map fst r) with
                      | PHelp => PHelp
                      | PError => PError
                      | POk (ev', fs) => if extra then PError else POk (Some (v, ev, ev', fs))
                      end
          end
      | (a, CUnknown) :: r => parse_main fuel r ev true
      | (a, CAmbiguous) :: r => PError
      | (a, COpt name o e) :: r =>
          match take_option main_options name o e r with
          | PHelp => PHelp
          | PError => PError
          | POk (vs, r') => parse_main fuel r' (ev ++ vs) extra
          end
      end
  end.
Definition parse_args (l : list (list Z)) :=
  let c := classes main_options l in
  if ambiguous c then PError else parse_main (S (List.length l)) c [] false.

(** * What the options mean: lines 591-640 *)
Definition key_eqb (a b : key) : bool :=
  match a, b with
  | KyHelp, KyHelp | KyVerbose, KyVerbose | KyDry, KyDry | KyForce, KyForce | KyAll, KyAll | KyLower, KyLower
  | KyExt, KyExt | KyDir, KyDir | KyText, KyText | KyType, KyType | KySegs, KySegs | KyMeta, KyMeta | KyCrc, KyCrc
  | KyAsm, KyAsm | KyData, KyData | KyObj, KyObj | KyRun, KyRun | KyOutput, KyOutput | KyClear, KyClear => true
  | _, _ => false
  end.
Definition seen (k : key) (ev : list event) : list (list (list Z)) := map snd (filter (fun e => key_eqb (fst e) k) ev).
(** store_true; store (the last one counts); append, of which only the first one is used *)
Definition flag (k : key) (ev : list event) : bool := match seen k ev with [] => false | _ => true end.
Definition stored (k : key) (ev : list event) : list Z := match List.last (seen k ev) [] with a :: _ => a | [] => [] end.
Definition firsts (k : key) (ev : list event) : list (list Z) := match seen k ev with a :: _ => a | [] => [] end.
Definition options_of_events (g ev : list event) : opts :=
  mkO (flag KyForce ev) (flag KyDry g) (flag KyLower ev) (flag KyText ev) (flag KyAll ev)
      (match stored KyDir ev with [] => None | d => Some d end) (stored KyType ev).
Definition command_of (v : verb) (ev : list event) (files : list (list Z)) : cmd :=
  match v with
  | VList => KList (flag KyCrc ev) files
  | VCrc => KCrc files
  | VExtract => KExtract files
  | VAdd => KAdd files
  | VCreate => KCreate (match files with a :: _ => a | [] => [] end)
  | VBoot => KBoot (firsts KyAsm ev) (firsts KyData ev) (firsts KyObj ev) (stored KyRun ev)
  | VAssemble => KAssemble (firsts KyAsm ev) (firsts KyData ev) (firsts KyObj ev) (stored KyRun ev) (stored KyOutput ev)
  | VDelete => KDelete files
  | VVtoc => KVtoc (flag KyClear ev)
  | VSegments => KSegments
  end.

(** * The whole: lines 546-591 *)
Inductive outcome :=
| ONothing                                    (* no arguments: usage, exit status 1 *)
| OHelp                                       (* help is printed, exit status 0 *)
| OUsage                                      (* an error message, exit status 2 *)
| OCrash (e : exn)
| ODashes                                     (* not modelled *)
| ORun (img : list Z) (o : opts) (c : cmd) (metadata : bool) (verbose : Z).

Definition is_help (a : list Z) : bool := zlist_eqb a (txt "-h") || zlist_eqb a (txt "--help").
Fixpoint find_last (i found : Z) (l : list (list Z)) : Z :=
  match l with [] => found | a :: r => find_last (i + 1) (if is_help a then i else found) r end.
Fixpoint find_plain (i : Z) (l : list (list Z)) : Z :=
  match l with [] => -1 | a :: r => if dashed a then find_plain (i + 1) r else i end.
Definition is_command (a : list Z) : bool := match lookup a reverse_aliases with Some _ => true | None => false end.
(** The arguments for the parser, and the image if there is one *)
Definition preprocess (args : list (list Z)) : res (option (list Z) * list (list Z)) :=
  let found_help := find_last 0 (-1) args in
  let first_non_dash := find_plain 0 args in
  let non_dash := filter (fun a => negb (dashed a)) args in
  if (0 <=? found_help) || (first_non_dash <? 0) then
    if (found_help =? 0) || (first_non_dash <? 0) then Ok (None, [txt "--help"])
    else match non_dash with
         | a :: r => if is_command a then Ok (None, [a; txt "--help"])
                     else match r with
                          | [] => Err EIndex
                          | b :: _ => if is_command b then Ok (None, [b; txt "--help"]) else Ok (None, [txt "--help"])
                          end
         | [] => Err EIndex
         end
  else
    let img := nth (Z.to_nat first_non_dash) args [] in
    let rest := slice args 0 first_non_dash ++ slice args (first_non_dash + 1) (zlen args) in
    Ok (Some img, if zlen non_dash =? 1 then rest ++ [txt "list"] else rest).
Definition command_line (args : list (list Z)) : outcome :=
  if existsb (zlist_eqb (txt "--")) args then ODashes
  else match args with
  | [] => ONothing
  | _ =>
      match preprocess args with
      | Err e => OCrash e
      | Ok (img, args') =>
          match parse_args args' with
          | PHelp => OHelp
          | PError => OUsage
          | POk None => OCrash EKey
          | POk (Some (v, g, ev, fs)) =>
              match img with
              | None => OCrash EUnbound        (* disk_image_name is not set *)
              | Some img => ORun img (options_of_events g ev) (command_of v ev fs) (flag KyMeta ev) (zlen (seen KyVerbose g))
              end
          end
      end
  end.
(** The program *)
Definition atrcopy (w : world) (f : fs) (args : list (list Z)) : fs * list msg * res unit :=
  match command_line args with
  | ORun img o c _ _ => main w o f img c
  | OCrash e => (f, [], Err e)
  | _ => (f, [], Ok tt)
  end.
