(** * AgainSpec.v: the lines of a formatted file. *)
From Verif Require Import Model.Go Model.Types Model.Pretty Model.Gitlab Model.Bitbucket Model.Convert Model.Legacy Model.Main Spec.MainSpec.

(** The keys a formatted file has at the margin. *)
Definition marginKeys : list string :=
  ["version"; "kind"; "type"; "name"; "platform"; "clone"; "concurrency"; "workspace"; "steps"; "services"; "volumes";
   "image_pull_secrets"; "node"; "trigger"; "depends_on"; "spec"; "hmac"; "data"; "get"].
Inductive MarginLine : string -> Prop :=
| margin_empty : MarginLine ""
| margin_start : MarginLine "---"
| margin_end : MarginLine "..."
| margin_deeper s : MarginLine (String " " s)
| margin_item s : MarginLine ("- " +++ s)
| margin_key k s : In k marginKeys -> MarginLine (k +++ ":" +++ s).
(** Numbers are written on one line. *)
Definition OneLine {A} (write : A -> string) : Prop := forall a, hasChar NL (write a) = false.
(** A name that is not the one of another system. *)
Definition OwnName (f : string) : Prop := f <> "bitbucket-pipelines.yml" /\ f <> ".gitlab-ci.yml".
(** The converters of the program. *)
Definition Converters (mc : Machine) : Prop :=
  (exists pathMatch ordT ordB ordS read, mc_bitbucket mc = bitbucketConvert pathMatch ordT ordB ordS read (formatted mc)) /\
  (exists available ord read, mc_gitlab mc = gitlabConvert available ord read (formatted mc)) /\
  exists getenv parseURL isPrintHigh marshal unmarshal ordM ordA formatFloat formatKey read expand,
    mc_legacy mc = Legacy.Convert getenv parseURL isPrintHigh marshal unmarshal ordM ordA formatFloat formatKey read expand (formatted mc).
