(** * AppendSpec.v: texts put one after another. *)
From Verif Require Import Model.Go Model.Types Model.RawParse Model.Main Spec.ParseSpec Spec.MainSpec.

Definition WholeLines (a : string) : Prop := a = "" \/ exists a', a = (a' +++ nl)%string.
(** The text has an end mark: a whole line that begins with three dots. *)
Definition Ended (s : string) : Prop := exists a r b,
  WholeLines a /\ ~ In NL (list_ascii_of_string r) /\ s = (a +++ "..." +++ r +++ nl +++ b)%string.
(** The text consists of whole lines that fit the buffer, none of which is an end mark. *)
Definition OpenText (s : string) : Prop := WholeLines s /\
  forall ls, Lines s ls -> Forall (fun l => Short l /\ ~ Starts "..." l) ls.
Definition SameDocuments (s t : string) : Prop := forall D, parseRawString D s = parseRawString D t.
Definition Converts (c : Args) : Prop := match c with AConvert _ _ _ => True | _ => False end.
(** A command says the same of two states of its source, and if it writes the source it writes the same. *)
Definition SameEffect (mc : Machine) (c : Args) (fs fs' : Files) : Prop :=
  let x := run mc c fs in let y := run mc c fs' in
  x_status y = x_status x /\ x_stdout y = x_stdout x /\ x_stderr y = x_stderr x /\
  ((Untouched fs x /\ Untouched fs' y) \/ exists out, OnlyWritten fs (source c) out x /\ OnlyWritten fs' (source c) out y).
