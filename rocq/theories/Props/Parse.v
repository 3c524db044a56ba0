(** * Parse.v: theorems C01 to C04. *)
From Verif Require Import Model.Go Model.Types Model.RawParse Model.Signer Model.Sha256.
From Verif Require Import Spec.ParseSpec Spec.SignSpec Conform.LineDecoder Proofs.ParseFacts Proofs.SignMore.

(** ** C01 *)
Theorem C01_parse_raw_documents : forall D s rls ls docs,
  Lines s rls -> Forall Short rls -> Forall2 Chomp rls ls -> File ls docs ->
  forall res, parseRawString D s = Ok res <-> Forall2 (Document D) docs res.
Proof. exact parse_raw_documents. Qed.
Print Assumptions C01_parse_raw_documents.

Theorem C01_parse_raw_errors : forall D s rls ls docs,
  Lines s rls -> Forall Short rls -> Forall2 Chomp rls ls -> File ls docs ->
  (exists e, parseRawString D s = Err e) <-> (exists doc, In doc docs /\ dec_header D (text doc) = None).
Proof. exact parse_raw_error. Qed.
Print Assumptions C01_parse_raw_errors.

Theorem C01_every_file_has_documents : forall s,
  exists rls ls docs, Lines s rls /\ Forall2 Chomp rls ls /\ File ls docs.
Proof. exact every_file. Qed.
Print Assumptions C01_every_file_has_documents.

Theorem C01_parse_raw_never_panics : forall D s, parseRawString D s <> Panic.
Proof. exact parseRawString_panic. Qed.
Print Assumptions C01_parse_raw_never_panics.

Definition sample : string :=
  ("a: 1" +++ nl +++ "--- # two" +++ nl +++ ("b: 2" +++ cr) +++ nl +++ "" +++ nl +++ "---" +++ nl +++ "..." +++ nl +++ "c")%string.
Example C01_case :
  Lines sample ["a: 1"; "--- # two"; ("b: 2" +++ cr)%string; ""; "---"; "..."; "c"] /\
  Forall2 Chomp ["a: 1"; "--- # two"; ("b: 2" +++ cr)%string; ""; "---"; "..."; "c"]
    ["a: 1"; "--- # two"; "b: 2"; ""; "---"; "..."; "c"] /\
  File ["a: 1"; "--- # two"; "b: 2"; ""; "---"; "..."; "c"] [["a: 1"]; ["b: 2"; ""]; []].
Proof.
  split; [|split].
  - unfold sample. repeat (apply Lines_cons; [simpl; intuition discriminate|]).
    apply Lines_last; [discriminate|simpl; intuition discriminate].
  - apply Forall2_Chomp. reflexivity.
  - apply (File_first "a: 1" [] ["--- # two"; "b: 2"; ""; "---"; "..."; "c"]).
    + repeat constructor; intros [r E]; discriminate.
    + apply (Blocks_doc "--- # two" ["b: 2"; ""] ["---"; "..."; "c"]).
      * exists " # two". reflexivity.
      * repeat constructor; intros [r E]; discriminate.
      * apply (Blocks_doc "---" [] ["..."; "c"]); [exists ""; reflexivity|constructor|].
        apply Blocks_term. exists "". reflexivity.
Qed.

(** ** C02 *)
Theorem C02_crlf_does_not_matter : forall D mac s rls key,
  Lines s rls -> ~ In CR (list_ascii_of_string s) -> Forall (fun l => (slen l < 65535)%N) rls ->
  parseRawString D (crlf s) = parseRawString D s /\ Sign D mac (crlf s) key = Sign D mac s key /\
  SignUpdate D mac (crlf s) key = SignUpdate D mac s key /\ Verify D mac (crlf s) key = Verify D mac s key.
Proof. exact crlf_same. Qed.
Print Assumptions C02_crlf_does_not_matter.

Theorem C02_final_newline_does_not_matter : forall D mac s key,
  s <> "" -> (forall s', s <> s' +++ nl)%string ->
  parseRawString D (s +++ nl)%string = parseRawString D s /\ Sign D mac (s +++ nl)%string key = Sign D mac s key /\
  SignUpdate D mac (s +++ nl)%string key = SignUpdate D mac s key /\
  Verify D mac (s +++ nl)%string key = Verify D mac s key.
Proof. exact final_newline_same. Qed.
Print Assumptions C02_final_newline_does_not_matter.

Example C02_case :
  let s := ("a" +++ nl +++ "" +++ nl +++ "b")%string in
  Lines s ["a"; ""; "b"] /\ ~ In CR (list_ascii_of_string s) /\ crlf s = ("a" +++ cr +++ nl +++ cr +++ nl +++ "b")%string.
Proof.
  split; [|split]; [|simpl; intuition discriminate|reflexivity].
  repeat (apply Lines_cons; [simpl; intuition discriminate|]).
  apply Lines_last; [discriminate|simpl; intuition discriminate].
Qed.

(** ** C03 *)
Theorem C03_long_line_ends_input : forall D a long b,
  (a = "" \/ exists a', a = a' +++ nl)%string ->
  ~ In NL (list_ascii_of_string long) -> (65536 <= slen long)%N ->
  (b = "" \/ exists b', b = nl +++ b')%string ->
  parseRawString D (a +++ long +++ b)%string = parseRawString D a.
Proof. exact long_line_same. Qed.
Print Assumptions C03_long_line_ends_input.

Theorem C03_short_lines_are_kept : forall D s rls ls ls' res,
  Lines s rls -> Forall Short rls -> Forall2 Chomp rls ls -> Forall (fun l => ~ Starts "..." l) ls ->
  WithoutSeparators ls ls' ->
  parseRawString D s = Ok res -> concats (map rr_data res) = text ls'.
Proof. exact short_lines_kept'. Qed.
Print Assumptions C03_short_lines_are_kept.

(** The claim 'every plain line is in some resource, or there is an error' is false. *)
Theorem C03_every_line_is_read_refuted :
  exists D s ls l res, Lines s ls /\ In l ls /\ Forall Plain ls /\ parseRawString D s = Ok res /\
    forall r, In r res -> ~ exists a b, rr_data r = (a +++ l +++ b)%string.
Proof. exact long_line_lost. Qed.
Print Assumptions C03_every_line_is_read_refuted.

(** ** C04 *)
Theorem C04_parse_is_typed_and_complete : forall D s m,
  parse D s = Ok m <->
  exists raws, parseRawString D s = Ok raws /\
    Forall2 (fun raw res => Typed D raw res /\ getKind res <> "") raws (mf_resources m).
Proof. exact parse_ok. Qed.
Print Assumptions C04_parse_is_typed_and_complete.

Theorem C04_bad_document_is_an_error : forall D s raws raw,
  parseRawString D s = Ok raws -> In raw raws ->
  (~ exists res, Typed D raw res /\ getKind res <> "") -> exists e, parse D s = Err e.
Proof. exact parse_rejects. Qed.
Print Assumptions C04_bad_document_is_an_error.

Theorem C04_undecodable_file_is_an_error : forall D s e,
  parseRawString D s = Err e -> parse D s = Err e.
Proof. exact parse_rejects_undecoded. Qed.
Print Assumptions C04_undecodable_file_is_an_error.

Theorem C04_parse_never_panics : forall D s, parse D s <> Panic.
Proof. exact parse_panic. Qed.
Print Assumptions C04_parse_never_panics.

Theorem C04_json_manifest : forall D split m b m',
  unmarshalJSON D split m b = Ok m' <->
  exists msgs raws rs, split b = Some msgs /\
    Forall2 (fun d r => rr_data r = d /\ dec_header D d = Some (header_of r)) msgs raws /\
    Forall2 (Typed D) raws rs /\ mf_resources m' = mf_resources m ++ rs.
Proof. exact unmarshalJSON_ok. Qed.
Print Assumptions C04_json_manifest.

Example C04_case :
  exists m, parse lineDecoder ("kind: cron" +++ nl +++ "---" +++ nl +++ "kind: other" +++ nl)%string = Ok m /\
    map getKind (mf_resources m) = ["cron"; "other"].
Proof. eexists. split; vm_compute; reflexivity. Qed.
Example C04_error_case : parse lineDecoder ("kind: cron" +++ nl +++ "---" +++ nl)%string = Err errorMissingKind.
Proof. vm_compute. reflexivity. Qed.
