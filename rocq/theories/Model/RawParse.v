(** * RawParse.v: splitting a yaml file into resources (yaml/parse.go, yaml/manifest.go). *)
From Verif Require Import Model.Go Model.Types.

(** bufio.MaxScanTokenSize. The scanner reads into a buffer of at most this many bytes and
    gives up (ErrTooLong) when the buffer is full and holds no newline. *)
Definition maxToken : N := 65536.

Definition slen (s : string) : N := N.of_nat (String.length s).

(** bufio.ScanLines, dropCR: one trailing carriage return is dropped. *)
Fixpoint dropCR (s : string) : string :=
  match s with
  | "" => ""
  | String c "" => if Ascii.eqb c CR then "" else s
  | String c s' => String c (dropCR s')
  end.

(** The tokens bufio.Scanner returns, given the pieces between newlines. Every piece but
    the last was ended by a newline; the last is what follows the last newline and yields a
    token only when it is not empty. Scanning stops at a piece that does not fit the buffer
    (with its newline, when it has one). *)
Fixpoint scan_pieces (l : list string) : list string :=
  match l with
  | [] => []
  | [last] =>
      if isEmpty last then []
      else if N.ltb (slen last) maxToken then [dropCR last] else []
  | p :: l' =>
      if N.ltb (slen p) maxToken then dropCR p :: scan_pieces l' else []
  end.
Definition scan_lines (s : string) : list string := scan_pieces (split_on NL s).

(** yaml/parse.go 169-171. *)
Definition isSeparator (s : string) : bool := hasPrefix s "---".
(** yaml/parse.go 173-175. *)
Definition isTerminator (s : string) : bool := hasPrefix s "...".

(** Appending to the Data of the last resource. *)
Fixpoint append_last (l : list string) (d : string) : list string :=
  match l with
  | [] => []
  | [x] => [(x +++ d)%string]
  | x :: l' => x :: append_last l' d
  end.

(** yaml/parse.go 106-132: the scan loop. [docs] is the Data of every resource so far;
    [cur] tells whether the variable resource is non-nil, in which case it is the last one.
    The test of scanner.Err() against io.EOF (line 121) is never true: Err() is nil at EOF. *)
Fixpoint raw_loop (lines : list string) (docs : list string) (cur : bool) : list string :=
  match lines with
  | [] => docs
  | line :: rest =>
      let cur1 := if isSeparator line then false else cur in
      let docs1 := if cur1 then docs else docs ++ [""] in
      if isSeparator line then raw_loop rest docs1 true
      else if isTerminator line then docs1
      else raw_loop rest (append_last (append_last docs1 line) nl) true
  end.

(** The Data of the resources of a file (yaml/parse.go 101-132). *)
Definition raw_docs (s : string) : list string := raw_loop (scan_lines s) [] false.

(** yaml/manifest.go 51-56. *)
Record RawResource : Type := {
  rr_version : string; rr_kind : string; rr_type : string; rr_data : string }.

(** What the yaml (and json) library makes of a document, per target type; [None] is an
    error. These functions are parameters of everything below. *)
Record Header : Type := { h_version : string; h_kind : string; h_type : string }.
Record Decoder : Type := {
  dec_header : string -> option Header;
  dec_cron : string -> option Cron;
  dec_secret : string -> option Secret;
  dec_signature : string -> option Signature;
  dec_registry : string -> option Registry;
  dec_pipeline : string -> option Pipeline }.

Definition yamlError : string := "yaml".

Definition decoded {A} (o : option A) : outcome A :=
  match o with Some a => Ok a | None => Err yamlError end.

(** yaml/parse.go 133-138: decoding the header of one resource. *)
Definition decode_raw (D : Decoder) (data : string) : outcome RawResource :=
  h <- decoded (dec_header D data) ;;
  Ok {| rr_version := h_version h; rr_kind := h_kind h; rr_type := h_type h; rr_data := data |}.

(** yaml/parse.go 100-140 (and 144-156, its string and byte variants). Reading from a file
    (160-167) adds only the error of os.Open. *)
Definition parseRawString (D : Decoder) (s : string) : outcome (list RawResource) :=
  otraverse (decode_raw D) (raw_docs s).

(** yaml/parse.go 80-96. *)
Definition parseRaw (D : Decoder) (r : RawResource) : outcome Resource :=
  if String.eqb (rr_kind r) "cron" then omap RCron (decoded (dec_cron D (rr_data r)))
  else if String.eqb (rr_kind r) "secret" then omap RSecret (decoded (dec_secret D (rr_data r)))
  else if String.eqb (rr_kind r) "signature" then omap RSignature (decoded (dec_signature D (rr_data r)))
  else if String.eqb (rr_kind r) "registry" then omap RRegistry (decoded (dec_registry D (rr_data r)))
  else omap RPipeline (decoded (dec_pipeline D (rr_data r))).

(** yaml/parse.go 28. *)
Definition errorMissingKind : string := "yaml: missing kind attribute".

(** yaml/parse.go 37-52, the loop over the raw resources (none of them is nil). *)
Definition parse_one (D : Decoder) (raw : RawResource) : outcome Resource :=
  r <- parseRaw D raw ;;
  if String.eqb (getKind r) "" then Err errorMissingKind else Ok r.

(** yaml/parse.go 31-54 (and 57-68, its byte and string variants). *)
Definition parse (D : Decoder) (s : string) : outcome Manifest :=
  raws <- parseRawString D s ;;
  rs <- otraverse (parse_one D) raws ;;
  Ok {| mf_resources := rs |}.

(** yaml/manifest.go 66-98. [split] is json.Unmarshal into a list of raw messages; the
    resources are appended to those the manifest already has. *)
Definition unmarshalJSON (D : Decoder) (split : string -> option (list string))
    (m : Manifest) (b : string) : outcome Manifest :=
  msgs <- decoded (split b) ;;
  rs <- otraverse (fun msg => raw <- decode_raw D msg ;; parseRaw D raw) msgs ;;
  Ok {| mf_resources := mf_resources m ++ rs |}.
