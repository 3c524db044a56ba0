(** * JsonWrite.v: writing in Model/Json.v meets Spec/JsonSpec.v, and what was written is read back. *)
From Coq Require Import Floats.SpecFloat Decimal DecimalString DecimalZ Lia.
From Verif Require Import Model.Go Model.Types Model.Decode Model.Json.
From Verif Require Import Spec.DecodeSpec Spec.PrettySpec Spec.ScriptSpec Spec.JsonSpec.
From Verif Require Import Proofs.GoFacts.
Definition emptyList {A} (l : list A) : bool := match l with [] => true | _ => false end.
From Verif Require Proofs.ScriptFacts Proofs.YamlStrings Proofs.PrettyRound Proofs.CompileMore Proofs.MapFacts Proofs.JsonFacts.
From Verif Require Model.Legacy Model.Quote.
Import DecodeFacts (optBind_iff, optTraverse_iff, optTraverse_cons).

(** ** Text *)
Lemma coerce_skip : forall s k x, k = String.length s -> coerceFrom k (s +++ x) = (s +++ coerceFrom 0 x)%string.
Proof.
  induction s as [|c s IH]; intros k x ->; [reflexivity|]. cbn [String.length String.append coerceFrom]. f_equal. apply IH. reflexivity.
Qed.
Lemma coerce_char : forall r x, Character r -> coerce (utf8 r +++ x) = (utf8 r +++ coerce x)%string.
Proof.
  intros r x C. destruct (N.ltb_spec r 128) as [L|L].
  - rewrite YamlStrings.utf8_ascii by exact L. unfold coerce. cbn [String.append coerceFrom].
    replace (N.ltb (code (byte r)) 128) with true; [reflexivity|]. symmetry. apply N.ltb_lt. rewrite ScriptFacts.code_byte; lia.
  - destruct (YamlStrings.decodeRune_utf8 r x L C) as (c & s & w & E & H & D & W). rewrite E. unfold coerce. cbn [String.append coerceFrom].
    replace (N.ltb (code c) 128) with false by (symmetry; apply N.ltb_ge; exact H). rewrite D.
    replace (S w - 1) with w by lia. f_equal. apply coerce_skip. symmetry. exact W.
Qed.
Lemma decodeRune_character : forall c s r w, Quote.decodeRune c s = Some (r, w) -> Character r.
Proof.
  intros c s r w H. pose proof (ScriptFacts.decodeRune_spec _ _ _ _ H) as (_ & R & _). revert H. unfold Quote.decodeRune.
  destruct (between 194 223 c) eqn:B1; [|destruct (between 224 239 c) eqn:B2; [|destruct (between 240 244 c) eqn:B3; [|discriminate]]];
  rewrite ScriptFacts.between_iff in *.
  - destruct (Quote.contByte 128 191 s) as [[b q]|] eqn:C1; [|discriminate]. intro H. injection H as <- <-.
    apply ScriptFacts.contByte_some in C1. destruct C1 as (c1 & -> & R1 & ->). unfold Character. lia.
  - destruct (Quote.contByte _ _ s) as [[b q]|] eqn:C1; [|discriminate]. apply ScriptFacts.contByte_some in C1.
    destruct C1 as (c1 & -> & R1 & ->). destruct (Quote.contByte 128 191 q) as [[b' q']|] eqn:C2; [|discriminate].
    apply ScriptFacts.contByte_some in C2. destruct C2 as (c2 & -> & R2 & ->). intro H. injection H as <- <-.
    unfold Character. destruct (N.eqb_spec (code c) 224), (N.eqb_spec (code c) 237); lia.
  - destruct (Quote.contByte _ _ s) as [[b q]|] eqn:C1; [|discriminate]. apply ScriptFacts.contByte_some in C1.
    destruct C1 as (c1 & -> & R1 & ->). destruct (Quote.contByte 128 191 q) as [[b' q']|] eqn:C2; [|discriminate].
    apply ScriptFacts.contByte_some in C2. destruct C2 as (c2 & -> & R2 & ->).
    destruct (Quote.contByte 128 191 q') as [[b'' q'']|] eqn:C3; [|discriminate].
    apply ScriptFacts.contByte_some in C3. destruct C3 as (c3 & -> & R3 & ->). intro H. injection H as <- <-.
    unfold Character. destruct (N.eqb_spec (code c) 240), (N.eqb_spec (code c) 244); lia.
Qed.
Lemma coerce_byte : forall c s, (forall r x, Character r -> String c s <> (utf8 r +++ x)%string) ->
  coerce (String c s) = (utf8 65533 +++ coerce s)%string.
Proof.
  intros c s N. unfold coerce. cbn [coerceFrom]. destruct (N.ltb_spec (code c) 128) as [L|L].
  - exfalso. apply (N (code c) s); [unfold Character; lia|]. rewrite YamlStrings.utf8_ascii by exact L.
    cbn [String.append]. f_equal. symmetry. apply ScriptFacts.byte_code.
  - destruct (Quote.decodeRune c s) as [[r w]|] eqn:D; [|reflexivity]. exfalso.
    pose proof (decodeRune_character _ _ _ _ D) as C. apply ScriptFacts.decodeRune_spec in D. destruct D as (U & _).
    apply (N r (sdrop w (String c s)) C). rewrite U. symmetry. apply stake_sdrop.
Qed.
Lemma cleaned_coerce : forall s t, Cleaned s t -> t = coerce s.
Proof.
  intros s t H. induction H as [|r s t C _ IH|c s t N _ IH]; [reflexivity| |].
  - rewrite coerce_char by exact C. rewrite IH. reflexivity.
  - rewrite coerce_byte by exact N. rewrite IH. reflexivity.
Qed.
Lemma coerce_cleaned : forall s, Cleaned s (coerce s).
Proof.
  assert (G : forall n s, String.length s <= n -> Cleaned s (coerce s)); [|intro s; apply (G (String.length s)); lia].
  induction n as [|n IH]; intros [|c s] L; cbn [String.length] in L; try lia; [constructor|constructor|].
  unfold coerce. cbn [coerceFrom]. destruct (N.ltb_spec (code c) 128) as [A|A].
  - assert (E : forall x, String c x = (utf8 (code c) +++ x)%string).
    { intro x. rewrite YamlStrings.utf8_ascii by exact A. cbn [String.append]. f_equal. symmetry. apply ScriptFacts.byte_code. }
    rewrite !E. apply cleaned_char; [unfold Character; lia|]. apply IH. lia.
  - destruct (Quote.decodeRune c s) as [[r w]|] eqn:D.
    + pose proof (decodeRune_character _ _ _ _ D) as C. apply ScriptFacts.decodeRune_spec in D. destruct D as (U & _ & k & -> & Lk).
      replace (S k - 1) with k by lia. cbn [stake] in U.
      assert (E : String c s = (utf8 r +++ sdrop k s)%string) by (rewrite U; cbn [String.append]; rewrite stake_sdrop; reflexivity).
      rewrite E at 1.
      assert (F : String c (coerceFrom k s) = (utf8 r +++ coerceFrom 0 (sdrop k s))%string).
      { rewrite U. cbn [String.append]. f_equal. rewrite <- (stake_sdrop k s) at 1. apply coerce_skip. rewrite slength_stake. lia. }
      rewrite F. apply cleaned_char; [exact C|]. apply IH. rewrite slength_sdrop. lia.
    + apply (cleaned_byte c s (coerce s)); [|apply IH; lia]. intros r x C E.
      destruct (N.ltb_spec r 128) as [R|R].
      * rewrite YamlStrings.utf8_ascii in E by exact R. cbn [String.append] in E. injection E as -> _. rewrite ScriptFacts.code_byte in A; lia.
      * destruct (YamlStrings.decodeRune_utf8 r x R C) as (c' & s' & w & E' & _ & D' & _). rewrite E' in E. cbn [String.append] in E.
        injection E as -> ->. congruence.
Qed.
Lemma cleaned_iff : forall s t, Cleaned s t <-> t = coerce s.
Proof. intros s t. split; [apply cleaned_coerce|]. intros ->. apply coerce_cleaned. Qed.

(** ** Writing *)
Definition seg (k : string) (o : option json) : entries := match o with Some j => [(k, j)] | None => [] end.
Definition oString (s : string) : option json := if isEmpty s then None else Some (jString s).
Definition oBool (b : bool) : option json := if b then Some (JBool true) else None.
Definition oInt (z : Z) : option json := if Z.eqb z 0 then None else Some (JNum (itoa z)).
Definition oList {A} (enc : A -> json) (l : list A) : option json := match l with [] => None | _ => Some (JArr (map enc l)) end.
Definition oMap {A} (enc : A -> json) (m : smap A) : option json := match m with [] => None | _ => Some (jMap enc m) end.
Lemma seg_string : forall k s, eString k s = seg k (oString s).
Proof. intros k s. unfold eString, oString. destruct (isEmpty s); reflexivity. Qed.
Lemma seg_bool : forall k b, eBool k b = seg k (oBool b).
Proof. intros k []; reflexivity. Qed.
Lemma seg_int : forall k z, eInt k z = seg k (oInt z).
Proof. intros k z. unfold eInt, oInt. destruct (Z.eqb z 0); reflexivity. Qed.
Lemma seg_list : forall A (enc : A -> json) k l, eList enc k l = seg k (oList enc l).
Proof. intros A enc k []; reflexivity. Qed.
Lemma seg_ptr : forall A (enc : A -> json) k o, ePtr enc k o = seg k (option_map enc o).
Proof. intros A enc k []; reflexivity. Qed.
Lemma seg_map : forall A (enc : A -> json) k m, eMap enc k m = seg k (oMap enc m).
Proof. intros A enc k []; reflexivity. Qed.

(** An entry that can only be [o], an encoding that is the only one. *)
Definition Wo (o : option json) (E : Entry) : Prop := forall o', E o' <-> o' = o.
Definition Wx {A} (enc : A -> json) (R : A -> json -> Prop) (a : A) : Prop := forall j, R a j <-> j = enc a.
Lemma wx_text : forall s, Wx jString WText s.
Proof.
  intros s j. unfold WText, jString. split.
  - intros (t & C & ->). apply cleaned_iff in C. congruence.
  - intros ->. exists (coerce s). split; [apply coerce_cleaned|reflexivity].
Qed.
Lemma wo_always : forall A (enc : A -> json) R a, Wx enc R a -> Wo (Some (enc a)) (Always (R a)).
Proof.
  intros A enc R a H o. unfold Always. split.
  - intros (j & -> & Rj). apply H in Rj. congruence.
  - intros ->. exists (enc a). split; [reflexivity|]. apply H. reflexivity.
Qed.
Lemma wo_always' : forall j (P : json -> Prop), (forall j', P j' <-> j' = j) -> Wo (Some j) (Always P).
Proof. intros j P H. exact (wo_always unit (fun _ => j) (fun _ => P) tt H). Qed.
Lemma wo_unless : forall (empty : Prop) (P : json -> Prop) b j, (b = true <-> empty) -> (b = false -> forall j', P j' <-> j' = j) ->
  Wo (if b then None else Some j) (Unless empty P).
Proof.
  intros empty P b j B H o. unfold Unless. destruct b.
  - assert (E : empty) by (apply B; reflexivity). split; [|auto]. intros [[_ X]|[N _]]; [exact X|contradiction].
  - assert (N : ~ empty) by (intro E; apply B in E; discriminate). split.
    + intros [[E _]|[_ (j' & -> & Pj)]]; [contradiction|]. apply (H eq_refl) in Pj. congruence.
    + intros ->. right. split; [exact N|]. exists j. split; [reflexivity|]. apply (H eq_refl). reflexivity.
Qed.
Lemma wo_text : forall s, Wo (oString s) (OText s).
Proof.
  intro s. apply wo_unless.
  - destruct s; cbn; split; congruence.
  - intros _. apply wx_text.
Qed.
Lemma wo_flag : forall b, Wo (oBool b) (OFlag b).
Proof.
  intro b. unfold oBool. replace (if b then Some (JBool true) else None) with (if negb b then None else Some (JBool true)) by (destruct b; reflexivity).
  apply wo_unless; [destruct b; cbn; split; congruence|]. intros _ j. tauto.
Qed.
Lemma wx_int : forall z, Wx (fun z => JNum (itoa z)) WInt z.
Proof. intros z j. unfold WInt. tauto. Qed.
Lemma wo_int : forall z, Wo (oInt z) (OInt z).
Proof. intro z. apply wo_unless; [apply Z.eqb_eq|]. intros _ j. apply wx_int. Qed.
Lemma forall2_map : forall A B (f : A -> B) (R : A -> B -> Prop) l, (forall a, In a l -> forall b, R a b <-> b = f a) ->
  forall l', Forall2 R l l' <-> l' = map f l.
Proof.
  intros A B f R l. induction l as [|a l IH]; intros H l'; cbn [map].
  - split; [intro F; inversion F; reflexivity|]. intros ->. constructor.
  - assert (IH' := IH (fun a I => H a (or_intror I))). split.
    + intro F. inversion F as [|? b ? l2 Rb F2]; subst. apply (H a (or_introl eq_refl)) in Rb. apply IH' in F2. congruence.
    + intros ->. constructor; [apply (H a (or_introl eq_refl)); reflexivity|]. apply IH'. reflexivity.
Qed.
Lemma wo_list : forall A (enc : A -> json) R l, (forall a, In a l -> Wx enc R a) -> Wo (oList enc l) (OList R l).
Proof.
  intros A enc R l H. replace (oList enc l) with (if emptyList l then None else Some (JArr (map enc l))) by (destruct l; reflexivity).
  apply wo_unless; [destruct l; cbn; split; congruence|]. intros _ j. split.
  - intros (js & -> & F). apply (forall2_map _ _ enc R l H) in F. congruence.
  - intros ->. exists (map enc l). split; [reflexivity|]. apply (forall2_map _ _ enc R l H). reflexivity.
Qed.
Lemma wo_texts : forall l, Wo (oList jString l) (OTexts l).
Proof. intro l. apply wo_list. intros a _. apply wx_text. Qed.
Lemma wo_given : forall A (enc : A -> json) R o, (forall a, o = Some a -> Wx enc R a) -> Wo (option_map enc o) (Given R o).
Proof.
  intros A enc R o H o'. unfold Given. destruct o as [a|]; cbn [option_map]; split.
  - intros [[E _]|(x & j & E & -> & Rj)]; [discriminate|]. injection E as <-. apply (H a eq_refl) in Rj. congruence.
  - intros ->. right. exists a, (enc a). repeat split. apply (H a eq_refl). reflexivity.
  - intros [[_ E]|(x & j & E & _)]; [exact E|discriminate].
  - intros ->. auto.
Qed.
Lemma wx_null : forall A (enc : A -> json) R o, (forall a, o = Some a -> Wx enc R a) -> Wx (nullable enc) (OrNull R) o.
Proof.
  intros A enc R o H j. unfold OrNull, nullable. destruct o as [a|]; split.
  - intros [[E _]|(x & E & Rj)]; [discriminate|]. injection E as <-. apply (H a eq_refl). exact Rj.
  - intros ->. right. exists a. split; [reflexivity|]. apply (H a eq_refl). reflexivity.
  - intros [[_ E]|(x & E & _)]; [exact E|discriminate].
  - intros ->. auto.
Qed.
Lemma jMap_sorted : forall A (enc : A -> json) m, NoDup (map fst m) ->
  jMap enc m = JObj (map (fun e => (coerce (fst e), enc (snd e))) (byKey m)).
Proof.
  intros A enc m N. unfold jMap. f_equal.
  rewrite flat_map_concat_map, (PrettyRound.sorted_get (fun k o => match o with Some a => [(coerce k, enc a)] | None => [] end)) by exact N.
  rewrite <- flat_map_concat_map. induction (byKey m) as [|e l IH]; [reflexivity|]. cbn; f_equal; exact IH.
Qed.
Lemma wo_map : forall A (enc : A -> json) R m, NoDup (map fst m) -> (forall k a, In (k, a) m -> Wx enc R a) -> Wo (oMap enc m) (OMap R m).
Proof.
  intros A enc R m N H. unfold oMap. rewrite (jMap_sorted A enc m N).
  assert (U : forall x : json, match m with [] => None | _ => Some x end = if emptyList m then None else Some x) by (intro x; destruct m; reflexivity).
  rewrite U. clear U.
  apply wo_unless; [destruct m; cbn; split; congruence|]. intros _ j.
  assert (X := forall2_map _ _ (fun e : string * A => (coerce (fst e), enc (snd e)))
    (fun (e : string * A) (x : string * json) => Cleaned (fst e) (fst x) /\ R (snd e) (snd x)) (byKey m)).
  assert (Y : forall a, In a (byKey m) -> forall b : string * json, Cleaned (fst a) (fst b) /\ R (snd a) (snd b) <-> b = (coerce (fst a), enc (snd a))).
  { intros [k a] I [k' j']. cbn [fst snd]. apply (proj1 (PrettyRound.byKey_In m (k, a))) in I. rewrite cleaned_iff, (H k a I j'). split; [intros [-> ->]; reflexivity|].
    intro E. injection E as -> ->. auto. }
  specialize (X Y). split.
  - intros (es & -> & F). apply X in F. congruence.
  - intros ->. eexists. split; [reflexivity|]. apply X. reflexivity.
Qed.
Lemma object_iff : forall l l', Forall2 (fun (e : string * Entry) (x : string * option json) => fst e = fst x /\ Wo (snd x) (snd e)) l l' ->
  forall j, Object l j <-> j = JObj (flatten l').
Proof.
  intros l l' F j. unfold Object.
  assert (X : forall os, Forall2 (fun (e : string * Entry) o => snd e o) l os <-> os = map snd l').
  { induction F as [|e x l l' [_ H] F IH]; intro os; cbn [map].
    - split; [intro G; inversion G; reflexivity|]. intros ->. constructor.
    - split.
      + intro G. inversion G as [|? o ? os' Ho G']; subst. apply H in Ho. apply IH in G'. congruence.
      + intros ->. constructor; [apply H; reflexivity|]. apply IH. reflexivity. }
  assert (Y : combine (map fst l) (map snd l') = l').
  { clear X. induction F as [|e [k o] l l' [E _] F IH]; [reflexivity|]. cbn in *. rewrite IH, E. reflexivity. }
  split.
  - intros (os & G & ->). apply X in G. subst os. rewrite Y. reflexivity.
  - intros ->. exists (map snd l'). split; [apply X; reflexivity|]. rewrite Y. reflexivity.
Qed.
Lemma object_has : forall l j k E, Object l j -> In (k, E) l -> exists o, E o.
Proof.
  intros l j k E (os & F & _). induction F as [|e o l os H F IH]; intro I; [destruct I|].
  destruct I as [->|I]; [exists o; exact H|apply IH, I].
Qed.

Create HintDb wr.
#[export] Hint Resolve wo_text wo_flag wo_int wo_texts wx_text : wr.
Ltac segments := rewrite ?seg_string, ?seg_bool, ?seg_int, ?seg_list, ?seg_ptr, ?seg_map; unfold seg;
  cbn [flatten flat_map fst snd app]; rewrite ?app_nil_r; reflexivity.
Ltac entryProof := solve [eauto with wr | apply wo_always'; eauto with wr].
Lemma entry_cons : forall k E o l l', Wo o E ->
  Forall2 (fun (e : string * Entry) (x : string * option json) => fst e = fst x /\ Wo (snd x) (snd e)) l l' ->
  Forall2 (fun (e : string * Entry) (x : string * option json) => fst e = fst x /\ Wo (snd x) (snd e)) ((k, E) :: l) ((k, o) :: l').
Proof. intros k E o l l' H F. constructor; [split; [reflexivity|exact H]|exact F]. Qed.
Ltac objectProof :=
  eapply iff_trans; [apply object_iff; repeat (eapply entry_cons; [entryProof|]); apply Forall2_nil|];
  match goal with |- _ = JObj ?x <-> _ = JObj ?y => replace y with x; [tauto|] end;
  unfold eStrings; segments.
Lemma wx_condition : forall c, Wx jCondition WCondition c.
Proof. intros c j. unfold WCondition, jCondition. objectProof. Qed.
#[export] Hint Resolve wx_condition wo_always : wr.
Lemma wx_conditions : forall w, NoDup (map fst (w_matrix w)) -> Wx jConditions WConditions w.
Proof. intros w N j. pose proof (wo_map _ jString WText (w_matrix w) N (fun _ a _ => wx_text a)) as M. unfold WConditions, jConditions. objectProof. Qed.
Lemma wx_variable : forall v, Wx jVariable WVariable v. Proof. intros v j. unfold WVariable, jVariable. objectProof. Qed.
Lemma wx_port : forall v, Wx jPort WPort v. Proof. intros v j. unfold WPort, jPort. objectProof. Qed.
Lemma wx_build : forall b, NoDup (map fst (b_args b)) -> NoDup (map fst (b_labels b)) -> Wx jBuild WBuild b.
Proof.
  intros b N1 N2 j. pose proof (wo_map _ jString WText _ N1 (fun _ a _ => wx_text a)) as M1.
  pose proof (wo_map _ jString WText _ N2 (fun _ a _ => wx_text a)) as M2. unfold WBuild, jBuild. objectProof.
Qed.
Lemma wx_push : forall v, Wx jPush WPush v. Proof. intros v j. unfold WPush, jPush. objectProof. Qed.
Lemma wx_device : forall v, Wx jDevice WDevice v. Proof. intros v j. unfold WDevice, jDevice. objectProof. Qed.
Lemma wx_mount : forall v, Wx jMount WMount v. Proof. intros v j. unfold WMount, jMount. objectProof. Qed.
Lemma wx_emptyDir : forall v, Wx jEmptyDir WEmptyDir v. Proof. intros v j. unfold WEmptyDir, jEmptyDir. objectProof. Qed.
Lemma wx_hostPath : forall v, Wx jHostPath WHostPath v. Proof. intros v j. unfold WHostPath, jHostPath. objectProof. Qed.
#[export] Hint Resolve wx_variable wx_port wx_push wx_device wx_mount wx_emptyDir wx_hostPath wo_given wo_list wx_null : wr.
Lemma wx_volume : forall v, Wx jVolume WVolume v. Proof. intros v j. unfold WVolume, jVolume. objectProof. Qed.
Lemma wx_clone : forall v, Wx jClone WClone v. Proof. intros v j. unfold WClone, jClone. objectProof. Qed.
Lemma wx_concurrency : forall v, Wx jConcurrency WConcurrency v. Proof. intros v j. unfold WConcurrency, jConcurrency. objectProof. Qed.
Lemma wx_platform : forall v, Wx jPlatform WPlatform v. Proof. intros v j. unfold WPlatform, jPlatform. objectProof. Qed.
Lemma wx_workspace : forall v, Wx jWorkspace WWorkspace v. Proof. intros v j. unfold WWorkspace, jWorkspace. objectProof. Qed.
#[export] Hint Resolve wx_volume wx_clone wx_concurrency wx_platform wx_workspace : wr.
Lemma wx_signature : forall v, Wx jSignature WSignature v. Proof. intros v j. unfold WSignature, jSignature. objectProof. Qed.
Lemma wx_registry : forall v, NoDup (map fst (rg_data v)) -> Wx jRegistry WRegistry v.
Proof. intros v N j. pose proof (wo_map _ jString WText _ N (fun _ a _ => wx_text a)) as M. unfold WRegistry, jRegistry. objectProof. Qed.
Lemma wx_cron : forall v, Wx jCron WCron v.
Proof.
  intros v j. unfold WCron, jCron.
  match goal with |- context [("deployment", Always (Object ?l))] => assert (D : forall j', Object l j' <-> j' = JObj (eString "target" (cr_target v))) by (intro j'; objectProof) end.
  match goal with |- context [("spec", Always (Object ?l))] => assert (S : forall j', Object l j' <-> j' = JObj (eString "schedule" (cr_schedule v) ++ eString "branch" (cr_branch v) ++
                          [("deployment", JObj (eString "target" (cr_target v)))])) by (intro j'; objectProof) end.
  objectProof.
Qed.
Lemma wx_secret : forall v, Wx jSecret WSecret v.
Proof.
  intros v j. unfold WSecret, jSecret.
  match goal with |- context [("get", Always (Object ?l))] => assert (S : forall j', Object l j' <-> j' =
    JObj (eString "path" (se_get_path v) ++ eString "name" (se_get_name v) ++ eString "key" (se_get_key v))) by (intro j'; objectProof) end.
  objectProof.
Qed.

Definition Mx {A} (enc : A -> outcome json) (R : A -> json -> Prop) (a : A) : Prop := forall j, R a j <-> enc a = Ok j.
(** A list of entries that holds at most the entry [k], or an error. *)
Definition Mo (m : outcome entries) (k : string) (E : Entry) : Prop :=
  (exists o, m = Ok (seg k o) /\ Wo o E) \/ ((forall es, m <> Ok es) /\ forall o, ~ E o).
Lemma each_iff : forall A B (f : A -> outcome B) (R : A -> B -> Prop) l, (forall a, In a l -> forall b, R a b <-> f a = Ok b) ->
  forall bs, Forall2 R l bs <-> each f l = Ok bs.
Proof.
  intros A B f R l. induction l as [|a l IH]; intros H bs; cbn [each].
  - split; [intro F; inversion F; reflexivity|]. intro E. injection E as <-. constructor.
  - assert (IH' := IH (fun a I => H a (or_intror I))). assert (Ha := H a (or_introl eq_refl)). split.
    + intro F. inversion F as [|? b ? l2 Rb F2]; subst. apply Ha in Rb. apply IH' in F2. rewrite Rb, F2. reflexivity.
    + destruct (f a) as [b| |]; try discriminate. destruct (each f l) as [l2| |]; try discriminate. intro E. injection E as <-.
      constructor; [apply Ha; reflexivity|]. apply IH'. reflexivity.
Qed.
Lemma mo_ptr : forall A (enc : A -> outcome json) R k o, (forall a, o = Some a -> Mx enc R a) -> Mo (marshalPtr enc k o) k (Given R o).
Proof.
  intros A enc R k o H. unfold marshalPtr. destruct o as [a|].
  - assert (Ha := H a eq_refl). destruct (enc a) as [j|e|] eqn:E; cbn [obind].
    + left. exists (Some j). split; [reflexivity|]. intro o'. unfold Given. split.
      * intros [[X _]|(x & j' & X & -> & Rj)]; [discriminate|]. injection X as <-. apply Ha in Rj. congruence.
      * intros ->. right. exists a, j. repeat split. apply Ha. exact E.
    + right. split; [discriminate|]. intros o' [[X _]|(x & j' & X & _ & Rj)]; [discriminate|]. injection X as <-. apply Ha in Rj. congruence.
    + right. split; [discriminate|]. intros o' [[X _]|(x & j' & X & _ & Rj)]; [discriminate|]. injection X as <-. apply Ha in Rj. congruence.
  - left. exists None. split; [reflexivity|]. apply (wo_given A (fun _ => JNull)). discriminate.
Qed.
Lemma mx_null : forall A (enc : A -> outcome json) R o, (forall a, o = Some a -> Mx enc R a) -> Mx (marshalNullable enc) (OrNull R) o.
Proof.
  intros A enc R o H j. unfold OrNull, marshalNullable. destruct o as [a|]; split.
  - intros [[E _]|(x & E & Rj)]; [discriminate|]. injection E as <-. apply (H a eq_refl). exact Rj.
  - intro E. right. exists a. split; [reflexivity|]. apply (H a eq_refl). exact E.
  - intros [[_ ->]|(x & E & _)]; [reflexivity|discriminate].
  - intro E. injection E as <-. auto.
Qed.

Lemma value_ind' : forall P : value -> Prop, P VNull -> (forall b, P (VBool b)) -> (forall z, P (VInt z)) -> (forall f, P (VFloat f)) ->
  (forall s, P (VStr s)) -> (forall l, (forall v, In v l -> P v) -> P (VList l)) -> (forall m, P (VMap m)) -> forall v, P v.
Proof.
  intros P H1 H2 H3 H4 H5 H6 H7. fix IH 1. intros [|b|z|f|s|l|m];
    [exact H1|apply H2|apply H3|apply H4|apply H5| |apply H7]. apply H6. induction l as [|a l IHl]; cbn [In]; intros n I; [destruct I|].
  destruct I as [<-|I]; [apply IH | apply IHl, I].
Qed.
Section Numbers.
  Variable formatFloat : float64 -> string.
  Lemma mx_float : forall f, Mx (marshalFloat formatFloat) (WFloat formatFloat) f.
  Proof. intros [b|b| |b m e] j; unfold WFloat; cbn [Finite marshalFloat]; split; try tauto; try discriminate; try (intros [_ ->]; reflexivity); intro E; injection E as <-; auto. Qed.
  Lemma mx_value : forall v, Mx (marshalValue formatFloat) (WValue formatFloat) v.
  Proof.
    intro v. induction v as [|b|z|f|s|l IH|m] using value_ind'; intro j; cbn [marshalValue]; split.
    - intro H. inversion H. reflexivity.
    - intro E. injection E as <-. constructor.
    - intro H. inversion H. reflexivity.
    - intro E. injection E as <-. constructor.
    - intro H. inversion H as [| |? ? I| | |]; subst. unfold WInt in I. rewrite I. reflexivity.
    - intro E. injection E as <-. constructor. reflexivity.
    - intro H. inversion H as [| | |? ? I| |]; subst. apply mx_float. exact I.
    - intro E. constructor. apply mx_float. exact E.
    - intro H. inversion H as [| | | |? ? I|]; subst. apply wx_text in I. congruence.
    - intro E. injection E as <-. constructor. apply wx_text. reflexivity.
    - intro H. inversion H as [| | | | |? js F]; subst. apply (each_iff _ _ (marshalValue formatFloat) (WValue formatFloat)) in F; [|exact IH]. rewrite F. reflexivity.
    - intro E. apply obind_ok in E. destruct E as (js & E & X). injection X as <-. constructor. apply (each_iff _ _ (marshalValue formatFloat)); assumption.
    - intro H. inversion H.
    - discriminate.
  Qed.
  Lemma mo_value : forall v, Mo (match v with VNull => Ok [] | v => j <- marshalValue formatFloat v ;; Ok [("value", j)] end) "value" (Unless (v = VNull) (WValue formatFloat v)).
  Proof.
    intro v. assert (H := mx_value v).
    assert (G : v <> VNull -> Mo (j <- marshalValue formatFloat v ;; Ok [("value", j)]) "value" (Unless (v = VNull) (WValue formatFloat v))).
    { intro N. destruct (marshalValue formatFloat v) as [j|e|] eqn:E; cbn [obind].
      - left. exists (Some j). split; [reflexivity|]. intro o. unfold Unless. split.
        + intros [[X _]|[_ (j' & -> & Rj)]]; [contradiction|]. apply H in Rj. congruence.
        + intros ->. right. split; [exact N|]. exists j. split; [reflexivity|]. apply H. exact E.
      - right. split; [discriminate|]. intros o [[X _]|[_ (j' & -> & Rj)]]; [contradiction|]. apply H in Rj. congruence.
      - right. split; [discriminate|]. intros o [[X _]|[_ (j' & -> & Rj)]]; [contradiction|]. apply H in Rj. congruence. }
    destruct v; try (apply G; discriminate). left. exists None. split; [reflexivity|].
    apply (wo_unless (VNull = VNull) _ true JNull); [tauto|discriminate].
  Qed.
  Ltac inList := cbn [In]; repeat first [left; reflexivity | right].
  Lemma object_none : forall l j k E, Object l j -> (forall o, ~ E o) -> In (k, E) l -> False.
  Proof. intros l j k E H N I. destruct (object_has l j k E H I) as (o & Ho). exact (N o Ho). Qed.
  Ltac broken N k := exfalso; match goal with H : Object ?l ?j |- _ => apply (object_none l j k _ H N); inList end.
  (** An object with entries that may fail: [c] is one of the alternatives of such an entry. *)
  Ltac may c k := let o := fresh "o" in let E := fresh "E" in let W := fresh "W" in let N := fresh "N" in
    destruct c as [(o & E & W)|[E N]];
    [rewrite E; cbn [obind] | split; [intro; broken N k | 
      intro; repeat first [solve [exfalso; eapply E; eassumption] |
        match goal with Q : obind _ _ = Ok _ |- _ => apply obind_ok in Q; destruct Q as (? & ? & ?) end]]].
  Ltac outcomeProof := match goal with |- ?P <-> Ok ?x = Ok ?j => enough (Z : P <-> j = x);
    [eapply iff_trans; [exact Z|]; split; [intros ->; reflexivity|let Q := fresh in intro Q; injection Q as <-; reflexivity]|objectProof] end.
  Lemma mx_parameter : forall p, Mx (marshalParameter formatFloat) (WParameter formatFloat) p.
  Proof.
    intros p j. unfold WParameter, marshalParameter. assert (C := mo_value (p_value p)).
    destruct (p_value p); cbv beta iota in C; (may C "value"; outcomeProof).
  Qed.
  Lemma mx_resourceObject : forall r, Mx (marshalResourceObject formatFloat) (WResourceObject formatFloat) r.
  Proof.
    intros r j. unfold WResourceObject, marshalResourceObject.
    assert (C : Mo (x <- marshalFloat formatFloat (ro_cpu r) ;; Ok [("cpu", x)]) "cpu" (Always (WFloat formatFloat (ro_cpu r)))).
    { assert (H := mx_float (ro_cpu r)). destruct (marshalFloat formatFloat (ro_cpu r)) as [x|e|] eqn:E; cbn [obind].
      - left. exists (Some x). split; [reflexivity|]. apply wo_always'. intro j'. rewrite (H j'), E. split; congruence.
      - right. split; [discriminate|]. intros o (j' & -> & Rj). apply H in Rj. congruence.
      - right. split; [discriminate|]. intros o (j' & -> & Rj). apply H in Rj. congruence. }
    destruct (marshalFloat formatFloat (ro_cpu r)) as [x|e|]; cbn [obind] in *.
    - destruct C as [(o & E & W)|[E N]]; [|exfalso; eapply E; reflexivity].
      destruct o as [y|]; [|discriminate]. injection E as <-.
      assert (I := wx_int (ro_memory r)). pose proof (wo_always _ _ _ _ I) as I'. outcomeProof.
    - destruct C as [(o & E & W)|[E N]]; [discriminate|]. split; [intro; broken N "cpu"|discriminate].
    - destruct C as [(o & E & W)|[E N]]; [discriminate|]. split; [intro; broken N "cpu"|discriminate].
  Qed.
  Lemma mx_resources : forall r, Mx (marshalResources formatFloat) (WResources formatFloat) r.
  Proof.
    intros r j. unfold WResources, marshalResources.
    assert (C1 := mo_ptr _ (marshalResourceObject formatFloat) (WResourceObject formatFloat) "limits" (re_limits r) (fun a _ => mx_resourceObject a)).
    assert (C2 := mo_ptr _ (marshalResourceObject formatFloat) (WResourceObject formatFloat) "requests" (re_requests r) (fun a _ => mx_resourceObject a)).
    may C1 "limits". may C2 "requests". outcomeProof.
  Qed.
  Lemma concat_single : forall A (l : list A), List.concat (map (fun x => [x]) l) = l.
  Proof. induction l as [|a l IH]; [reflexivity|]. cbn. rewrite IH. reflexivity. Qed.
  Lemma each_ok_map : forall A B C (f : A -> outcome B) (g : C -> A) l, each f (map g l) = each (fun c => f (g c)) l.
  Proof. intros A B C f g l. induction l as [|a l IH]; [reflexivity|]. cbn [map each]. rewrite IH. reflexivity. Qed.
  Lemma each_ext : forall A B (f g : A -> outcome B) l, (forall a, In a l -> f a = g a) -> each f l = each g l.
  Proof.
    intros A B f g l. induction l as [|a l IH]; intro H; [reflexivity|]. cbn [each]. rewrite (H a (or_introl eq_refl)), IH; [reflexivity|].
    intros b I. apply H. right. exact I.
  Qed.
  Lemma each_wrap : forall A B C (f : A -> outcome B) (g : A -> B -> C) l,
    each (fun a => b <- f a ;; Ok (g a b)) l = (bs <- each f l ;; Ok (map (fun ab => g (fst ab) (snd ab)) (combine l bs))).
  Proof.
    intros A B C f g l. induction l as [|a l IH]; [reflexivity|]. cbn [each]. destruct (f a) as [b| |]; try reflexivity. cbn [obind].
    rewrite IH. destruct (each f l); reflexivity.
  Qed.
  Lemma mo_settings : forall m, NoDup (map fst m) -> Mo (marshalSettings formatFloat m) "settings" (OMap (OrNull (WParameter formatFloat)) m).
  Proof.
    intros m N. destruct m as [|e0 m0] eqn:Em.
    { left. exists None. split; [reflexivity|]. apply (wo_map _ (fun _ => JNull) _ []); [constructor|]. intros k a []. }
    rewrite <- Em in *. assert (Hm : m <> []) by (rewrite Em; discriminate).
    set (one := fun e : string * option Parameter_ => j <- marshalNullable (marshalParameter formatFloat) (snd e) ;; Ok (coerce (fst e), j)).
    assert (S : marshalSettings formatFloat m = (es <- each one (byKey m) ;; Ok [("settings", JObj es)])).
    { unfold marshalSettings. rewrite Em at 1. rewrite <- (PrettyRound.byKey_keys m). rewrite each_ok_map.
      rewrite (each_ext _ _ _ (fun e => x <- one e ;; Ok [x])).
      - rewrite (each_wrap _ _ _ one (fun _ x => [x])). destruct (each one (byKey m)) as [es| |] eqn:X; try reflexivity. cbn [obind].
        do 3 f_equal. f_equal. f_equal. clear Em Hm. revert es X. generalize (byKey m) as l. induction l as [|a l IH]; intros es X; cbn [each] in X.
        + injection X as <-. reflexivity.
        + destruct (one a) as [b| |]; try discriminate. destruct (each one l) as [bs| |]; try discriminate. injection X as <-.
          cbn. f_equal. apply IH. reflexivity.
      - intros [k p] I. cbn [fst]. apply (proj1 (PrettyRound.byKey_In m (k, p))) in I. rewrite (proj2 (MapFacts.mget_unique k p m N) I). unfold one. cbn [fst snd].
        destruct (marshalNullable _ p); reflexivity. }
    assert (X : forall es, Forall2 (fun (e : string * option Parameter_) (x : string * json) => Cleaned (fst e) (fst x) /\ OrNull (WParameter formatFloat) (snd e) (snd x)) (byKey m) es
                <-> each one (byKey m) = Ok es).
    { apply each_iff. intros [k p] _ [k' j]. cbn [fst snd]. unfold one. cbn [fst snd]. rewrite cleaned_iff.
      rewrite (mx_null _ (marshalParameter formatFloat) (WParameter formatFloat) p (fun a _ => mx_parameter a) j).
      destruct (marshalNullable (marshalParameter formatFloat) p) as [j'| |]; cbn [obind]; split; try discriminate; try (intros [_ Y]; discriminate).
      - intros [-> Y]. congruence.
      - intro Y. injection Y as <- <-. auto. }
    rewrite S. destruct (each one (byKey m)) as [es|e|]; cbn [obind].
    - left. exists (Some (JObj es)). split; [reflexivity|].
      apply (wo_unless (m = []) _ false); [split; [discriminate|contradiction]|]. intros _ j. split.
      + intros (es' & -> & F). apply X in F. congruence.
      + intros ->. exists es. split; [reflexivity|]. apply X. reflexivity.
    - right. split; [discriminate|]. intros o [[Y _]|[_ (j & -> & es & -> & F)]]; [contradiction|]. apply X in F. discriminate.
    - right. split; [discriminate|]. intros o [[Y _]|[_ (j & -> & es & -> & F)]]; [contradiction|]. apply X in F. discriminate.
  Qed.
  Lemma mx_container : forall c, GoContainer c -> Mx (marshalContainer formatFloat) (WContainer formatFloat) c.
  Proof.
    intros c (GB & GE & GS & _ & _ & _ & GW) j. unfold WContainer, marshalContainer.
    assert (C1 := mo_ptr _ (marshalResources formatFloat) (WResources formatFloat) "resources" (ct_resources c) (fun a _ => mx_resources a)).
    assert (C2 := mo_settings (ct_settings c) (proj1 GS)).
    assert (B : Wo (option_map jBuild (ct_build c)) (Given WBuild (ct_build c))).
    { apply wo_given. intros b E. destruct (GB b E) as [[N1 _] [N2 _]]. apply wx_build; assumption. }
    assert (V : Wo (oMap (nullable jVariable) (ct_environment c)) (OMap (OrNull WVariable) (ct_environment c))).
    { apply wo_map; [apply GE|]. intros k v _. eauto with wr. }
    assert (W := wx_conditions (ct_when c) (proj1 GW)).
    may C1 "resources". may C2 "settings". outcomeProof.
  Qed.
  Lemma mo_containers : forall k l, (forall c, In (Some c) l -> GoContainer c) ->
    Mo (marshalContainers formatFloat k l) k (OList (OrNull (WContainer formatFloat)) l).
  Proof.
    intros k l G. destruct l as [|c0 l0] eqn:El.
    { left. exists None. split; [reflexivity|]. apply (wo_list _ (fun _ => JNull) _ []). intros a []. }
    rewrite <- El in *. assert (Hl : l <> []) by (rewrite El; discriminate).
    assert (S : marshalContainers formatFloat k l = (js <- each (marshalNullable (marshalContainer formatFloat)) l ;; Ok [(k, JArr js)])) by (rewrite El; reflexivity).
    assert (X : forall js, Forall2 (OrNull (WContainer formatFloat)) l js <-> each (marshalNullable (marshalContainer formatFloat)) l = Ok js).
    { apply each_iff. intros o I. apply mx_null. intros c ->. apply mx_container, G, I. }
    rewrite S. destruct (each (marshalNullable (marshalContainer formatFloat)) l) as [js|e|]; cbn [obind].
    - left. exists (Some (JArr js)). split; [reflexivity|].
      apply (wo_unless (l = []) _ false); [split; [discriminate|contradiction]|]. intros _ j. split.
      + intros (es' & -> & F). apply X in F. congruence.
      + intros ->. exists js. split; [reflexivity|]. apply X. reflexivity.
    - right. split; [discriminate|]. intros o [[Y _]|[_ (j & -> & es & -> & F)]]; [contradiction|]. apply X in F. discriminate.
    - right. split; [discriminate|]. intros o [[Y _]|[_ (j & -> & es & -> & F)]]; [contradiction|]. apply X in F. discriminate.
  Qed.
  Lemma mx_pipeline : forall p, GoPipeline p -> Mx (marshalPipeline formatFloat) (WPipeline formatFloat) p.
  Proof.
    intros p (_ & _ & GN & GC & GT & _) j. unfold WPipeline, marshalPipeline.
    assert (C1 := mo_containers "services" (pi_services p) (fun c I => GC c (or_introl I))).
    assert (C2 := mo_containers "steps" (pi_steps p) (fun c I => GC c (or_intror I))).
    assert (M := wo_map _ jString WText (pi_node p) (proj1 GN) (fun _ a _ => wx_text a)).
    assert (T := wx_conditions (pi_trigger p) (proj1 GT)).
    may C1 "services". may C2 "steps". outcomeProof.
  Qed.
  Lemma mx_resource : forall r, GoResource r -> Mx (marshalResource formatFloat) (WResource formatFloat) r.
  Proof.
    assert (K : forall A (enc : A -> json) R a, Wx enc R a -> Mx (fun a => Ok (enc a)) R a).
    { intros A enc R a H j. rewrite (H j). split; congruence. }
    intros [c|p|s|s|g] G; cbn [GoResource] in G.
    - exact (K _ _ _ _ (wx_cron c)).
    - exact (mx_pipeline p G).
    - exact (K _ _ _ _ (wx_secret s)).
    - exact (K _ _ _ _ (wx_signature s)).
    - exact (K _ _ _ _ (wx_registry g (proj1 G))).
  Qed.
  Lemma marshal_iff : forall m, (forall r, In r (mf_resources m) -> GoResource r) ->
    forall j, marshalJSON formatFloat m = Ok j <-> WManifest formatFloat (mf_resources m) j.
  Proof.
    intros m G j. unfold marshalJSON, WManifest. destruct (mf_resources m) as [|r0 l0] eqn:El.
    - split; [intro E; injection E as <-; auto|]. intros [[_ ->]|[N _]]; [reflexivity|contradiction].
    - rewrite <- El in *. assert (X : forall js, Forall2 (WResource formatFloat) (mf_resources m) js <-> each (marshalResource formatFloat) (mf_resources m) = Ok js).
      { apply each_iff. intros r I. apply mx_resource, G, I. }
      split.
      + intro E. apply obind_ok in E. destruct E as (js & E & Y). injection Y as <-. right. split; [rewrite El; discriminate|].
        exists js. split; [reflexivity|]. apply X, E.
      + intros [[E _]|[_ (js & -> & F)]]; [rewrite E in El; discriminate|]. apply X in F. rewrite F. reflexivity.
  Qed.

  (** ** Which manifests can be written *)
  Lemma each_ok : forall A B (f : A -> outcome B) l, (exists bs, each f l = Ok bs) <-> forall a, In a l -> exists b, f a = Ok b.
  Proof.
    intros A B f l. induction l as [|a l IH]; cbn [each].
    - split; [intros _ a []|]. intros _. exists []. reflexivity.
    - split.
      + intros (bs & E). destruct (f a) as [b| |] eqn:Ea; try discriminate. destruct (each f l) as [l2| |] eqn:El; try discriminate.
        intros a' [<-|I]; [exists b; exact Ea|]. apply IH; [exists l2; reflexivity|exact I].
      + intro H. destruct (H a (or_introl eq_refl)) as (b & ->). destruct (proj2 IH (fun a I => H a (or_intror I))) as (bs & ->). exists (b :: bs). reflexivity.
  Qed.
  Lemma float_ok : forall f, (exists j, marshalFloat formatFloat f = Ok j) <-> Finite f.
  Proof. intros [b|b| |b m e]; cbn; split; try tauto; try (intros (j & E); discriminate); intros _; eexists; reflexivity. Qed.
  Lemma value_ok : forall v, (exists j, marshalValue formatFloat v = Ok j) <-> Writable v.
  Proof.
    intro v. induction v as [|b|z|f|s|l IH|m] using value_ind'; cbn [marshalValue].
    1, 2, 3, 5: (split; [intros _; constructor|intros _; eexists; reflexivity]).
    - rewrite float_ok. split; [apply writable_float|]. intro W. inversion W. assumption.
    - split.
      + intros (j & E). apply obind_ok in E. destruct E as (js & E & _). constructor. intros v I. apply (IH v I).
        revert v I. apply each_ok. exists js. exact E.
      + intro W. inversion W as [| | | | |? H]; subst. destruct (proj2 (each_ok _ _ (marshalValue formatFloat) l)) as (js & ->).
        * intros v I. apply (IH v I), H, I.
        * eexists. reflexivity.
    - split; [intros (j & E); discriminate|]. intro W. inversion W.
  Qed.
  Lemma parameter_ok : forall p, (exists j, marshalParameter formatFloat p = Ok j) <-> Writable (p_value p).
  Proof.
    intro p. rewrite <- value_ok. unfold marshalParameter. destruct (p_value p) as [|b|z|f|s|l|m].
    1: (split; intros _; eexists; reflexivity).
    all: (match goal with |- _ <-> exists j, ?x = _ => destruct x as [j| |]; cbn [obind]; split; try (intros (? & E); discriminate); intros _; eexists; reflexivity end).
  Qed.
  Lemma ptr_ok : forall A (enc : A -> outcome json) k o, (exists es, marshalPtr enc k o = Ok es) <-> forall a, o = Some a -> exists j, enc a = Ok j.
  Proof.
    intros A enc k [a|]; cbn [marshalPtr].
    - split.
      + intros (es & E) a' X. injection X as <-. apply obind_ok in E. destruct E as (j & E & _). exists j. exact E.
      + intro H. destruct (H a eq_refl) as (j & ->). eexists. reflexivity.
    - split; [discriminate|]. intros _. eexists. reflexivity.
  Qed.
  Lemma object_ok : forall r, (exists j, marshalResourceObject formatFloat r = Ok j) <-> Finite (ro_cpu r).
  Proof.
    intro r. rewrite <- float_ok. unfold marshalResourceObject. destruct (marshalFloat formatFloat (ro_cpu r)); cbn [obind]; split;
      try (intros (? & E); discriminate); intros _; eexists; reflexivity.
  Qed.
  Lemma bind_ok : forall A B (m : outcome A) (f : A -> B), (exists b, (a <- m ;; Ok (f a)) = Ok b) <-> exists a, m = Ok a.
  Proof.
    intros A B [a| |] f; cbn; split; try (intros (? & E); discriminate); intros _; eexists; reflexivity.
  Qed.
  Lemma bind2_ok : forall A B C (m : outcome A) (n : outcome B) (f : A -> B -> C),
    (exists c, (a <- m ;; b <- n ;; Ok (f a b)) = Ok c) <-> (exists a, m = Ok a) /\ exists b, n = Ok b.
  Proof.
    intros A B C m n f. destruct m as [a| |]; cbn [obind].
    - rewrite bind_ok. split; [intro H; split; [eexists; reflexivity|exact H]|]. tauto.
    - split; [intros (? & E)|intros [(? & E) _]]; discriminate.
    - split; [intros (? & E)|intros [(? & E) _]]; discriminate.
  Qed.
  Lemma resources_ok : forall r, (exists j, marshalResources formatFloat r = Ok j) <->
    forall o, re_limits r = Some o \/ re_requests r = Some o -> Finite (ro_cpu o).
  Proof.
    intro r. unfold marshalResources. rewrite bind2_ok, !ptr_ok. split.
    - intros [H1 H2] o [E|E]; apply object_ok; auto.
    - intro H. split; intros o E; apply object_ok; auto.
  Qed.
  Lemma settings_ok : forall m, NoDup (map fst m) ->
    (exists es, marshalSettings formatFloat m = Ok es) <-> forall k p, In (k, Some p) m -> Writable (p_value p).
  Proof.
    intros m N. destruct m as [|e0 m0] eqn:Em.
    { split; [intros _ k p []|]. intros _. eexists. reflexivity. }
    rewrite <- Em in *. assert (Hm : m <> []) by (rewrite Em; discriminate). clear Em.
    assert (Q : forall B (x y : B), match m with [] => x | _ => y end = y) by (destruct m; [contradiction|reflexivity]).
    unfold marshalSettings. rewrite Q. clear Q. rewrite bind_ok, each_ok. split.
    - intros H k p I. apply parameter_ok. destruct (H k) as (es & E).
      { rewrite <- PrettyRound.byKey_keys. apply in_map_iff. exists (k, Some p). split; [reflexivity|]. apply PrettyRound.byKey_In, I. }
      rewrite (proj2 (MapFacts.mget_unique k (Some p) m N) I) in E. apply obind_ok in E. destruct E as (j & E & _). exists j. exact E.
    - intros H k I. rewrite <- PrettyRound.byKey_keys in I. apply in_map_iff in I. destruct I as ([k' p] & <- & I). apply (proj1 (PrettyRound.byKey_In m (k', p))) in I.
      cbn [fst]. rewrite (proj2 (MapFacts.mget_unique k' p m N) I). apply bind_ok. destruct p as [p|]; cbn [marshalNullable]; [|eexists; reflexivity].
      apply parameter_ok, (H k'), I.
  Qed.
  Lemma container_ok : forall c, NoDup (map fst (ct_settings c)) -> (exists j, marshalContainer formatFloat c = Ok j) <-> WritableStep c.
  Proof.
    intros c N. unfold marshalContainer. rewrite bind2_ok, ptr_ok, settings_ok by exact N. unfold WritableStep. split.
    - intros [H1 H2]. split; [exact H2|]. intros r o E. apply resources_ok, (H1 r E).
    - intros [H1 H2]. split; [|exact H1]. intros r E. apply resources_ok. intros o. apply (H2 r o E).
  Qed.
  Lemma containers_ok : forall k l, (forall c, In (Some c) l -> NoDup (map fst (ct_settings c))) ->
    (exists es, marshalContainers formatFloat k l = Ok es) <-> forall c, In (Some c) l -> WritableStep c.
  Proof.
    intros k l N. destruct l as [|c0 l0] eqn:El.
    { split; [intros _ c []|]. intros _. eexists. reflexivity. }
    rewrite <- El in *. assert (Hl : l <> []) by (rewrite El; discriminate). clear El.
    assert (Q : forall B (x y : B), match l with [] => x | _ => y end = y) by (destruct l; [contradiction|reflexivity]).
    unfold marshalContainers. rewrite Q. clear Q. rewrite bind_ok, each_ok. split.
    - intros H c I. apply container_ok; [apply N, I|]. exact (H (Some c) I).
    - intros H [c|] I; cbn [marshalNullable]; [|eexists; reflexivity]. apply container_ok; [apply N, I|]. apply H, I.
  Qed.
  Lemma resource_ok : forall r, GoResource r -> (exists j, marshalResource formatFloat r = Ok j) <-> WritableResource r.
  Proof.
    intros [c|p|s|s|g] G; cbn [marshalResource WritableResource GoResource] in *.
    1, 3, 4, 5: (split; [tauto|]; intros _; eexists; reflexivity).
    destruct G as (_ & _ & _ & G & _). unfold marshalPipeline. rewrite bind2_ok.
    rewrite !containers_ok; [|intros c I; destruct (G c) as (_ & _ & X & _); [auto|exact (proj1 X)]..].
    split.
    - intros [H1 H2] c I. apply in_app_or in I. destruct I; auto.
    - intro H. split; intros c I; apply H, in_or_app; auto.
  Qed.
  Lemma manifest_ok : forall m, (forall r, In r (mf_resources m) -> GoResource r) ->
    (exists j, marshalJSON formatFloat m = Ok j) <-> forall r, In r (mf_resources m) -> WritableResource r.
  Proof.
    intros m G. unfold marshalJSON. destruct (mf_resources m) as [|r0 l0] eqn:El.
    { split; [intros _ r []|]. intros _. eexists. reflexivity. }
    rewrite <- El in *. rewrite bind_ok, each_ok. split; intros H r I; apply (resource_ok r (G r I)); auto.
  Qed.
End Numbers.
