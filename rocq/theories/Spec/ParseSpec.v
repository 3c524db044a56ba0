(** * ParseSpec.v: what the documents of a yaml file are, independently of the scanner. *)
From Verif Require Import Model.Go Model.Types Model.RawParse.

(** [Lines s ls]: the byte string [s] consists of the lines [ls]; each line but possibly the
    last is ended by one newline, and no line contains a newline. *)
Inductive Lines : string -> list string -> Prop :=
| Lines_nil : Lines "" []
| Lines_last l : l <> "" -> ~ In NL (list_ascii_of_string l) -> Lines l [l]
| Lines_cons l s ls :
    ~ In NL (list_ascii_of_string l) -> Lines s ls -> Lines (l +++ nl +++ s)%string (l :: ls).

(** [Chomp raw l]: [l] is the raw line without one carriage return at its end. *)
Inductive Chomp : string -> string -> Prop :=
| Chomp_cr l : Chomp (l +++ cr)%string l
| Chomp_no l : (forall l', l <> l' +++ cr)%string -> Chomp l l.

(** A line that fits the scanner's buffer. *)
Definition Short (l : string) : Prop := (slen l < 65536)%N.

Definition Starts (p l : string) : Prop := exists r, l = (p +++ r)%string.
Definition Plain (l : string) : Prop := ~ Starts "---" l /\ ~ Starts "..." l.

(** [Blocks ls docs]: [ls] is a sequence of documents, each with its separator line, then
    the end of the file or a terminator line followed by anything. *)
Inductive Blocks : list string -> list (list string) -> Prop :=
| Blocks_end : Blocks [] []
| Blocks_term t rest : Starts "..." t -> Blocks (t :: rest) []
| Blocks_doc sep body ls docs :
    Starts "---" sep -> Forall Plain body -> Blocks ls docs ->
    Blocks (sep :: body ++ ls) (body :: docs).

(** [File ls docs]: the lines [ls] hold the documents [docs]. The first document may lack
    its separator line; a file that starts with the terminator holds one empty document. *)
Inductive File : list string -> list (list string) -> Prop :=
| File_empty : File [] []
| File_sep ls doc docs : Blocks ls (doc :: docs) -> File ls (doc :: docs)
| File_first l body ls docs :
    Forall Plain (l :: body) -> Blocks ls docs -> File ((l :: body) ++ ls) ((l :: body) :: docs)
| File_term t rest : Starts "..." t -> File (t :: rest) [[]].

(** The text of a document: its lines, each ended by a newline. *)
Definition text (body : list string) : string :=
  concats (map (fun l => l +++ nl)%string body).

(** The resource a raw resource denotes; every kind but four is a pipeline. *)
Inductive Typed (D : Decoder) (r : RawResource) : Resource -> Prop :=
| Typed_cron c : rr_kind r = "cron" -> dec_cron D (rr_data r) = Some c -> Typed D r (RCron c)
| Typed_secret s : rr_kind r = "secret" -> dec_secret D (rr_data r) = Some s -> Typed D r (RSecret s)
| Typed_signature s :
    rr_kind r = "signature" -> dec_signature D (rr_data r) = Some s -> Typed D r (RSignature s)
| Typed_registry g :
    rr_kind r = "registry" -> dec_registry D (rr_data r) = Some g -> Typed D r (RRegistry g)
| Typed_pipeline p :
    ~ In (rr_kind r) ["cron"; "secret"; "signature"; "registry"] ->
    dec_pipeline D (rr_data r) = Some p -> Typed D r (RPipeline p).

(** Every newline written as carriage return and newline. *)
Fixpoint crlf (s : string) : string :=
  match s with
  | "" => ""
  | String c s' => if Ascii.eqb c NL then String CR (String NL (crlf s')) else String c (crlf s')
  end.

(** [Document D doc r]: [r] is the raw resource of the document with lines [doc]. *)
Definition Document (D : Decoder) (doc : list string) (r : RawResource) : Prop :=
  rr_data r = text doc /\
  dec_header D (text doc) = Some {| h_version := rr_version r; h_kind := rr_kind r; h_type := rr_type r |}.

(** [WithoutSeparators ls ls']: [ls'] is [ls] without the lines starting with three dashes. *)
Inductive WithoutSeparators : list string -> list string -> Prop :=
| WS_nil : WithoutSeparators [] []
| WS_drop l ls ls' : Starts "---" l -> WithoutSeparators ls ls' -> WithoutSeparators (l :: ls) ls'
| WS_keep l ls ls' : ~ Starts "---" l -> WithoutSeparators ls ls' -> WithoutSeparators (l :: ls) (l :: ls').
