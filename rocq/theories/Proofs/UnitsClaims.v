(** * UnitsClaims.v: sizes in whole files. *)
From Coq Require Import Lia ZArith.
From Verif Require Import Model.Go Model.Types Model.Decode Model.RawParse Model.Pretty Model.Units.
From Verif Require Import Spec.YamlSpec Spec.PrettySpec Spec.UnitsSpec.
From Verif Require Import Proofs.GoFacts Proofs.YamlStrings Proofs.PrettyMore Proofs.PrettyText Proofs.PrettyClaims Proofs.UnitsFacts Proofs.UnitsPrint Proofs.UnitsTrip.
Open Scope Z_scope.

Definition sizeDecoder : Decoder := treeDecoder ramInBytes (readYaml plainResolve).
Definition sizePrint : Manifest -> outcome string := print (fun _ : N => true) noFloat noFloat bytesSize.
(** The memory limits of the steps of all pipelines. *)
Definition memoryLimits (m : Manifest) : list Z :=
  flat_map (fun r => match r with
    | RPipeline p => flat_map (fun c => match c with
        | Some c => match ct_resources c with
            | Some {| re_limits := Some l |} => [ro_memory l] | _ => [] end
        | None => [] end) (pi_steps p)
    | _ => [] end) (mf_resources m).
Definition sizeFile : string := "kind: pipeline
name: default

steps:
- name: build
  image: golang
  resources:
    limits:
      memory: 1066

...
".
Definition sizeManifest : Manifest := match parse sizeDecoder sizeFile with Ok m => m | _ => {| mf_resources := [] |} end.
Definition parsedSize (text : string) : Manifest := match parse sizeDecoder text with Ok m => m | _ => {| mf_resources := [] |} end.
Definition printedSize (m : Manifest) : string := match sizePrint m with Ok s => s | _ => "" end.
(** Formatting a file takes a byte from its memory limit, and formatting it again another one. *)
Theorem memory_shrinks : exists m out m' out' m'', sizePrint m = Ok out /\ parse sizeDecoder out = Ok m' /\
  sizePrint m' = Ok out' /\ parse sizeDecoder out' = Ok m'' /\
  memoryLimits m = [1066] /\ memoryLimits m' = [1065] /\ memoryLimits m'' = [1064].
Proof.
  exists sizeManifest, (printedSize sizeManifest), (parsedSize (printedSize sizeManifest)), (printedSize (parsedSize (printedSize sizeManifest))),
    (parsedSize (printedSize (parsedSize (printedSize sizeManifest)))).
  split; [vm_compute; reflexivity|]. split; [vm_compute; reflexivity|]. split; [vm_compute; reflexivity|]. split; [vm_compute; reflexivity|].
  split; [vm_compute; reflexivity|]. split; vm_compute; reflexivity.
Qed.
Definition hugeFile : string := "kind: pipeline
name: default

steps:
- name: build
  image: golang
  resources:
    limits:
      memory: 1024P

...
".
(** A limit of an exbibyte is written with a unit that is not read. *)
Theorem memory_lost : exists m out e, sizePrint m = Ok out /\ memoryLimits m = [2 ^ 60] /\ parse sizeDecoder out = Err e.
Proof.
  exists (parsedSize hugeFile), (printedSize (parsedSize hugeFile)).
  eexists. split; [vm_compute; reflexivity|]. split; vm_compute; reflexivity.
Qed.

Lemma digits_printable : forall s, Digits s -> sforallb printable s = true.
Proof.
  induction s as [|c s IH]; intro D; [reflexivity|]. apply digits_cons in D. destruct D as (C & D). cbn [sforallb]. rewrite (IH D).
  apply isDigit_in in C. cbn in C. repeat destruct C as [<-|C]; try contradiction; reflexivity.
Qed.
Lemma sforallb_app : forall f a b, sforallb f (a +++ b)%string = (sforallb f a && sforallb f b)%bool.
Proof. intros f a b. induction a as [|c a IH]; [reflexivity|]. cbn. rewrite IH. apply Bool.andb_assoc. Qed.
Theorem multiple_ok : forall resolve m i, 0 <= m < 1024 -> (i <= 5)%nat ->
  let t := bytesSize (m * 1024 ^ Z.of_nat i) in resolve t = NStr t -> SizeOk resolve ramInBytes bytesSize (m * 1024 ^ Z.of_nat i).
Proof.
  intros resolve m i R I t E. destruct (Z.eq_dec m 0) as [->|N]; [left; reflexivity|]. right.
  split; [|split; [exact E|apply multiple_back; assumption]]. unfold t in *. clear t E.
  assert (NI : exists u, nth_error sizeUnits i = Some u /\ sforallb printable u = true) by (do 6 (destruct i as [|i]; [eexists; split; reflexivity|]); lia). destruct NI as (u & NI & PU).
  rewrite (multiple_text m i u ltac:(lia) I NI). destruct (itoa_digits m ltac:(lia)) as (D & NE & _). apply plainly_readable. unfold plainly.
  rewrite sforallb_app, (digits_printable _ D), PU. cbn [andb]. destruct (itoa m) as [|c s]; [congruence|]. apply digits_cons in D. destruct D as (C & _). cbn [String.append].
  apply isDigit_in in C. cbn in C. repeat destruct C as [<-|C]; try contradiction; reflexivity.
Qed.
