(** * LegacyLint.v: which converted 0.8 configurations the linter accepts. *)
From Coq Require Import Lia Sorting.Permutation.
From Verif Require Import Model.Go Model.Types Model.Decode Model.Signer Model.Lint Model.Legacy
  Spec.LintSpec Spec.LegacySpec Spec.ConvertedSpec Proofs.GoFacts Proofs.LintFacts Proofs.LegacyFacts Proofs.LegacyMore.

Lemma names_unique orig f f' : RightNames orig f -> RightNames orig f' -> f = f'.
Proof.
  intros [L H] [L' H'].
  assert (G : forall i, i <= length orig -> firstn i f = firstn i f').
  { induction i as [|i IH]; intro Hi; [reflexivity|].
    destruct (nth_error orig i) as [o|] eqn:Eo; [|apply nth_error_None in Eo; lia].
    destruct (nth_error f i) as [a|] eqn:Ea; [|apply nth_error_None in Ea; lia].
    destruct (nth_error f' i) as [b|] eqn:Eb; [|apply nth_error_None in Eb; lia].
    assert (S1 : forall (l : list string) x, nth_error l i = Some x -> firstn (S i) l = firstn i l ++ [x]).
    { clear. induction i as [|i IH]; intros [|y l] x E; try discriminate; cbn in E |- *; [congruence|]. f_equal. now apply IH. }
    rewrite (S1 _ _ Ea), (S1 _ _ Eb). rewrite <- (IH ltac:(lia)). f_equal. f_equal.
    specialize (H i o a Eo Ea). specialize (H' i o b Eo Eb). rewrite <- (IH ltac:(lia)) in H'. intuition congruence. }
  specialize (G (length orig) (le_n _)). rewrite !firstn_all2 in G by lia. exact G.
Qed.
Lemma names_kept orig : NoDup orig -> RightNames orig orig.
Proof.
  intro N. split; [reflexivity|]. intros i o f Eo Ef. left. rewrite Eo in Ef. split; [|congruence].
  intro I. apply In_nth_error in I as (j & Ej).
  assert (Hj : j < i). { assert (Lj : nth_error (firstn i orig) j <> None) by congruence. apply nth_error_Some in Lj. rewrite firstn_length in Lj. lia. }
  assert (E : nth_error orig j = Some o).
  { rewrite <- Ej. clear - Hj. revert j Hj orig. induction i as [|i IH]; intros j Hj orig; [lia|]. destruct orig; [now destruct j|].
    destruct j; [reflexivity|]. cbn. apply IH. lia. }
  assert (j = i); [|lia]. apply (proj1 (NoDup_nth_error orig) N); [apply nth_error_Some; congruence|congruence].
Qed.
Lemma names_nonempty orig final : RightNames orig final -> (Forall (fun s => s <> "") final <-> Forall (fun s => s <> "") orig).
Proof.
  intros [L H]. rewrite !Forall_forall. split; intros G x I; intros ->.
  - (* the first empty name is kept *)
    assert (F : exists i, nth_error orig i = Some "" /\ forall j, j < i -> nth_error orig j <> Some "").
    { clear - I. induction orig as [|a orig IH]; [destruct I|]. destruct (string_dec a "") as [->|Ha].
      - exists 0. split; [reflexivity|lia].
      - destruct I as [->|I]; [congruence|]. destruct (IH I) as (i & Ei & Hi). exists (S i). split; [exact Ei|].
        intros [|j] Hj; [cbn; congruence|]. apply Hi. lia. }
    destruct F as (i & Ei & Hi). destruct (nth_error final i) as [f|] eqn:Ef.
    2:{ apply nth_error_None in Ef. assert (nth_error orig i <> None) by congruence. apply nth_error_Some in H0. lia. }
    destruct (H i _ _ Ei Ef) as [[_ ->]|[If _]]; [exact (G "" (nth_error_In _ _ Ef) eq_refl)|].
    assert (I' : In "" final) by (clear - If; revert final If; induction i as [|i IH]; intros [|a final] If; cbn in If; try tauto; destruct If as [<-|If]; [left; reflexivity|right; now apply IH]).
    exact (G "" I' eq_refl).
  - apply In_nth_error in I as (i & Ef). destruct (nth_error orig i) as [o|] eqn:Eo.
    2:{ apply nth_error_None in Eo. assert (nth_error final i <> None) by congruence. apply nth_error_Some in H0. lia. }
    destruct (H i _ _ Eo Ef) as [[_ <-]|[_ E]]; [exact (G "" (nth_error_In _ _ Eo) eq_refl)|].
    destruct o; discriminate.
Qed.

Lemma hexDigit_between n : (n < 16)%N -> hexDigit n <> "w"%char /\ hexDigit n <> "_"%char.
Proof. intro H. assert (F : forallb (fun k => negb (Ascii.eqb (hexDigit k) "w") && negb (Ascii.eqb (hexDigit k) "_")) [0;1;2;3;4;5;6;7;8;9;10;11;12;13;14;15]%N = true) by reflexivity.
  rewrite forallb_forall in F. assert (I : In n [0;1;2;3;4;5;6;7;8;9;10;11;12;13;14;15]%N).
  { cbn. lia. }
  specialize (F n I). apply andb_true_iff in F as [F1 F2]. rewrite !negb_true_iff in *. split; intro E; rewrite E in *; discriminate.
Qed.
Lemma hex_not_reserved s : ~ Reserved (hexEncode s).
Proof.
  destruct s as [|c s]; [intros [E|[E|[E|[]]]]; discriminate|]. cbn [hexEncode].
  destruct (hexDigit_between (code c / 16)) as [A B].
  { apply N.div_lt_upper_bound; [lia|]. pose proof (N_ascii_bounded c). unfold code. lia. }
  intros [E|[E|[E|[]]]]; injection E; intros; congruence.
Qed.

Lemma right_container_good t c c' : RightContainer c c' ->
  (GoodContainer t c' <-> ct_name c' <> "" /\ lc_image c <> "" /\ (t = false -> Harmless c)).
Proof.
  intros (Ei & _ & _ & _ & Ed & Es & _ & Ee & Ep & _ & _ & _ & _ & Ev & _ & Eb & _ & Edev & _ & En & Epo & _).
  unfold GoodContainer, Unprivileged, Harmless. rewrite Eb, Ei, Ed, Es, Ee, Ep, Edev, En, Epo.
  assert (V : forall m, In (Some m) (ct_volumes c') -> ~ Reserved (vm_name m)).
  { intros m I. clear - Ev I. induction Ev as [|v m' vs ms (v0 & m0 & _ & -> & _ & E) F IH]; [destruct I|].
    destruct I as [I|I]; [|auto]. injection I as <-. rewrite E. apply hex_not_reserved. }
  split; [tauto|]. intros (A & B & C). split; [exact A|]. split; [exact B|]. split; [exact V|].
  intro H. specialize (C H). repeat split; try tauto; intros ? [].
Qed.
Lemma right_containers t l l' : Forall2 RightContainer l l' ->
  (Forall (GoodContainer t) l' <-> Forall (fun s => s <> "") (map ct_name l') /\ Forall (fun c => lc_image c <> "") l /\ (t = false -> Forall Harmless l)).
Proof.
  intro F. induction F as [|c c' l l' H F IH]; [cbn; split; auto|].
  cbn [map]. rewrite !Forall_cons_iff, IH, (right_container_good t _ _ H). split.
  - intros ((A & B & C) & D & E & G). split; [split; assumption|]. split; [split; assumption|]. intro Q. constructor; auto.
  - intros ((A & D) & (B & E) & G). split; [split; [exact A|split; [exact B|]]|split; [exact D|split; [exact E|]]]; intro Q; specialize (G Q); inversion G; assumption.
Qed.
Lemma no_null_parts l l' : Forall2 RightContainer l l' -> Forall (fun c => ~ In None (ct_ports c) /\ ~ In None (ct_volumes c)) l'.
Proof.
  intro F. induction F as [|c c' l l' H F IH]; constructor; [|exact IH].
  destruct H as (_ & _ & _ & _ & _ & _ & _ & _ & _ & _ & _ & _ & _ & Ev & _ & _ & _ & _ & _ & _ & Epo & _).
  rewrite Epo. split; [intros []|]. clear - Ev. intro I. induction Ev as [|v m' vs ms (v0 & m0 & _ & -> & _) F IH]; [destruct I|].
  destruct I as [I|I]; [discriminate|auto].
Qed.
Lemma no_depends l l' : Forall2 RightContainer l l' -> Forall (fun c => ct_depends c = []) l'.
Proof.
  intro F. induction F as [|c c' l l' H F IH]; constructor; [|exact IH].
  destruct H as (_ & _ & _ & _ & _ & _ & _ & _ & _ & _ & _ & _ & _ & _ & _ & _ & Ed & _). exact Ed.
Qed.
Lemma host_volumes g vs : RightVolumes g vs -> exists vols, vs = map Some vols /\
  forall t, Forall (GoodVolume t) vols <-> (t = false -> sources g = []).
Proof.
  intros (srcs & _ & Hs & F).
  assert (X : exists vols, vs = map Some vols /\ Forall2 (fun v s => vo_name v = hexEncode s /\ vo_empty v = None /\ vo_host v = Some {| vh_path := s |}) vols srcs).
  { clear Hs. induction F as [|v s vs srcs (v0 & -> & H) F (vols & -> & F')]; [exists []; split; constructor|].
    exists (v0 :: vols). split; [reflexivity|]. constructor; assumption. }
  destruct X as (vols & -> & F'). exists vols. split; [reflexivity|]. intro t. split.
  - intros G ->. destruct (sources g) as [|s l] eqn:E; [reflexivity|exfalso].
    assert (I : In s srcs) by (apply Hs; left; reflexivity). clear - F' G I.
    induction F' as [|v s' vols srcs (_ & _ & Hh) F' IH]; [destruct I|]. inversion G as [|? ? G1 G2]; subst.
    destruct I as [->|I]; [|auto]. destruct G1 as [_ G1]. destruct (G1 eq_refl) as [G1' _]. congruence.
  - intro Z. assert (N : t = false -> srcs = []).
    { intro Q. specialize (Z Q). destruct srcs as [|s l]; [reflexivity|]. assert (I : In s (sources g)) by (apply Hs; left; reflexivity). rewrite Z in I. destruct I. }
    clear - F' N. induction F' as [|v s' vols srcs (Hn & He & Hh) F' IH]; constructor.
    + split; [rewrite Hn; apply hex_not_reserved|]. intro Q. specialize (N Q). discriminate.
    + apply IH. intro Q. specialize (N Q). discriminate.
Qed.
Lemma no_sources g : CompleteConfig g -> (sources g = [] <-> Forall (fun c => lc_volumes c = []) (lg_pipeline g ++ lg_services g)).
Proof.
  intro HC. assert (H : Forall (fun c => ~ In None (lc_volumes c)) (lg_pipeline g ++ lg_services g)).
  { apply Forall_forall. intros c I. apply in_app_or in I. exact (proj1 (HC c (or_intror I))). }
  unfold sources. induction H as [|c l Hc Hl IH]; [cbn; split; auto|]. cbn [flat_map]. rewrite flat_map_app, Forall_cons_iff.
  split.
  - intro E. apply app_eq_nil in E as [E1 E2]. split; [|apply IH, E2]. destruct (lc_volumes c) as [|[v|] vs]; [reflexivity|discriminate|]. exfalso. apply Hc. left. reflexivity.
  - intros [E1 E2]. rewrite E1. cbn. apply IH, E2.
Qed.

Theorem lint_converted getenv g p trusted : CompleteConfig g -> RightPipeline getenv g p ->
  (Lint (RPipeline p) trusted = Ok tt <-> GoodLegacy getenv trusted g).
Proof.
  intros HC (_ & _ & _ & _ & _ & Hd & _ & _ & _ & _ & _ & Hpl & _ & _ & HV & steps & services & Es & Ev & HS & HF & Hn & _).
  destruct (host_volumes _ _ HV) as (vols & Evols & GV).
  assert (X : exists extra, Forall2 RightContainer (lg_clone g ++ lg_pipeline g) (skipn (length extra) steps) /\
             steps = extra ++ skipn (length extra) steps /\ Forall DefaultClone extra /\ RightNames (legacyNames getenv g) (map ct_name steps) /\
             cloneNames p = takenName getenv g /\ (extra = [] \/ exists n, map ct_name steps = "clone" :: n)).
  { destruct HS as [HS1 HS2]. unfold legacyNames, takenName, cloneNames. destruct (lg_clone g) as [|k ks] eqn:Ek.
    - destruct (string_dec (getenv "DRONE_CONVERT_YAML_LEGACY_CLONE") "true") as [Q|Q].
      + destruct (HS2 eq_refl Q) as (c & rest & -> & Hc & Hr & HN). exists [c]. cbn. repeat split; auto; try apply HN.
        * rewrite (proj2 Hd (or_intror Q)). reflexivity.
        * right. destruct HN as [_ HN]. specialize (HN 0 "clone" (ct_name c) eq_refl eq_refl). cbn in HN.
          destruct HN as [[_ ->]|[[] _]]. eexists. reflexivity.
      + destruct (HS1 (or_intror Q)) as (Hr & HN). exists []. cbn. repeat split; auto; try apply HN.
        destruct (cl_disable (pi_clone p)); [|reflexivity]. destruct (proj1 Hd eq_refl) as [Z|Z]; congruence.
    - assert (Q : k :: ks <> []) by discriminate. destruct (HS1 (or_introl Q)) as (Hr & HN). exists []. cbn [length skipn app]. rewrite <- map_app. repeat split; auto; try apply HN.
      rewrite (proj2 Hd); [reflexivity|left; discriminate]. }
  destruct X as (extra & F1 & E1 & D1 & N1 & C1 & Z1). set (rest := skipn (length extra) steps) in *.
  assert (DC : Forall (fun c => (~ In None (ct_ports c) /\ ~ In None (ct_volumes c)) /\ ct_depends c = []) extra).
  { eapply Forall_impl; [|exact D1]. intros c (n & ->). cbn. tauto. }
  assert (NN : NoNulls p steps services vols).
  { split; [exact Es|]. split; [exact Ev|]. split; [exact Evols|]. rewrite E1. apply Forall_app. split; [apply Forall_app; split|].
    - eapply Forall_impl; [|exact DC]. intros c [Hc _]. exact Hc.
    - exact (no_null_parts _ _ F1).
    - exact (no_null_parts _ _ HF). }
  change (Lint (RPipeline p) trusted) with (checkPipeline p trusted).
  rewrite (checkPipeline_ok trusted p steps services vols NN). unfold WellFormed, GoodLegacy. rewrite Hpl, C1, GV, no_sources by exact HC.
  assert (DE : DepsEarlier (takenName getenv g) steps).
  { intros before s after d E I. exfalso. assert (A : Forall (fun c => ct_depends c = []) steps).
    { rewrite E1. apply Forall_app. split; [eapply Forall_impl; [|exact DC]; intros c [_ Hc]; exact Hc|exact (no_depends _ _ F1)]. }
    rewrite Forall_forall in A. rewrite (A s) in I; [destruct I|]. rewrite E. apply in_or_app. right. left. reflexivity. }
  assert (GE : Forall (GoodContainer trusted) extra <-> Forall (fun s => s <> "") (map ct_name extra)).
  { clear - D1. induction D1 as [|c l (n & ->) D IH]; [cbn; split; constructor|]. cbn [map]. rewrite !Forall_cons_iff, IH.
    unfold GoodContainer, Unprivileged. cbn. split; [tauto|]. intros [A B]. repeat split; auto; try discriminate; intros ? []. }
  assert (LN : Forall (fun s => s <> "") (legacyNames getenv g) <-> Forall (fun s => s <> "") (map lc_name (lg_clone g ++ lg_pipeline g))).
  { unfold legacyNames. destruct (lg_clone g) as [|k ks]; [|rewrite map_app; reflexivity].
    destruct (string_dec _ _); [|reflexivity]. cbn [app]. rewrite Forall_cons_iff. split; [tauto|]. split; [discriminate|assumption]. }
  pose proof (names_nonempty _ _ N1) as NE.
  assert (GS : Forall (GoodContainer trusted) steps <->
     Forall (fun s => s <> "") (map lc_name (lg_clone g ++ lg_pipeline g)) /\ Forall (fun c => lc_image c <> "") (lg_clone g ++ lg_pipeline g) /\
     (trusted = false -> Forall Harmless (lg_clone g ++ lg_pipeline g))).
  { rewrite <- LN, <- NE. clearbody rest. clear - E1 GE F1. subst steps. rewrite map_app.
    rewrite (Forall_app (GoodContainer trusted)), GE, (right_containers trusted _ _ F1), (Forall_app (fun s => s <> "")). tauto. }
  pose proof (right_containers trusted _ _ HF) as GSv. rewrite Hn in GSv.
  assert (NA : forall l, Forall Named l <-> Forall (fun s => s <> "") (map lc_name l) /\ Forall (fun c => lc_image c <> "") l).
  { clear. intro l. induction l as [|c l IH]; [cbn; split; auto|]. cbn [map]. rewrite !Forall_cons_iff, IH. unfold Named. tauto. }
  assert (NM : NoDup (takenName getenv g ++ map ct_name (steps ++ services)) <->
     exists final, RightNames (legacyNames getenv g) final /\ NoDup (takenName getenv g ++ final ++ map lc_name (lg_services g))).
  { rewrite map_app, Hn. split; [intro H; exists (map ct_name steps); auto|]. intros (final & R & H). rewrite (names_unique _ _ _ N1 R). exact H. }
  assert (FA : forall (P : LContainer -> Prop), Forall P (lg_clone g ++ lg_pipeline g ++ lg_services g) <-> Forall P (lg_clone g ++ lg_pipeline g) /\ Forall P (lg_services g)).
  { intro P. rewrite app_assoc. apply Forall_app. }
  rewrite NM, (Forall_app (GoodContainer trusted)), GS, GSv, !FA, !NA.
  assert (SP : SupportedPlatform noPlatform) by (split; left; reflexivity).
  split.
  - intros (_ & V & ((A & B & C) & D & E & F) & G & _). split; [split; split; assumption|]. split; [exact G|].
    intro Q. split; [split; [exact (C Q)|exact (F Q)]|exact (V Q)].
  - intros (((A & B) & D & E) & G & V). split; [exact SP|]. split; [intro Q; apply (V Q)|]. split; [|split; [exact G|exact DE]].
    split; (split; [assumption|]; split; [assumption|]; intro Q; apply (V Q)).
Qed.

Lemma lint_converted_secret g s t : NoDup (mkeys (lg_secrets g)) -> (forall k d, In (k, d) (lg_secrets g) -> NoDup (mkeys (ld_opts d))) ->
  RightSecret g s -> forall d, In (se_name s, d) (lg_secrets g) -> (Lint (RSecret s) t = Ok tt <-> GoodLegacySecret d).
Proof.
  intros N No (d' & I' & _ & Ed & _ & _ & _ & Hv & Hn) d I.
  assert (d' = d).
  { clear - N I I'. unfold mkeys in N. induction (lg_secrets g) as [|[k x] l IH]; [destruct I|]. cbn in N. inversion N as [|? ? N1 N2]; subst.
    destruct I as [I|I], I' as [I'|I']; [congruence| | |auto]; exfalso; apply N1; [injection I as -> ->; apply (in_map fst) in I'; exact I'|injection I' as -> ->; apply (in_map fst) in I; exact I]. }
  subst d'. cbn [Lint]. rewrite validateSecret_ok, Ed. unfold GoodLegacySecret.
  destruct (string_dec (ld_driver d) "vault") as [Q|Q].
  - destruct (Hv Q) as (H1 & H2 & H3 & H4). clear Hv Hn.
    assert (G : forall k, (exists x, In (k, x) (ld_opts d)) \/ ~ In k (mkeys (ld_opts d))).
    { intro k. destruct (in_dec string_dec k (mkeys (ld_opts d))) as [J|J]; [left|right; exact J]. apply in_map_iff in J as ([k' x] & <- & J). exists x. exact J. }
    split.
    + intros [Z|[Z|Z]]; [congruence| |]; (split; [intros _|tauto]).
      * destruct (G "path") as [(x & J)|J]; [|apply H2 in J; congruence]. exists "path", x. rewrite (H1 x J) in Z. auto.
      * destruct (G "key") as [(x & J)|J]; [|apply H4 in J; congruence]. exists "key", x. rewrite (H3 x J) in Z. auto.
    + intros [Z _]. destruct (Z Q) as (k & x & [-> | ->] & J & X); right; [left; rewrite (H1 x J)|right; rewrite (H3 x J)]; exact X.
  - destruct (Hn Q) as (H1 & H2 & H3). clear Hv Hn. split.
    + intros [Z|[Z|Z]]; [congruence| |congruence]. split; [tauto|]. intros _.
      destruct (string_dec (ld_path d) "") as [P|P]; [right; rewrite (H3 P) in Z; exact Z|left; exact P].
    + intros [_ Z]. right. left. destruct (string_dec (ld_path d) "") as [P|P]; [rewrite (H3 P)|rewrite (H2 P); exact P].
      destruct (Z Q); [contradiction|assumption].
Qed.
Theorem lint_converted_manifest getenv parseURL isPrintHigh marshal unmarshal ordM ordA n g remote m trusted :
  CompleteConfig g -> lg_matrix g = VNull -> NoDup (mkeys (lg_secrets g)) ->
  (forall k d, In (k, d) (lg_secrets g) -> NoDup (mkeys (ld_opts d))) ->
  toManifest getenv parseURL isPrintHigh marshal unmarshal ordM ordA n g remote = Ok m ->
  (Forall (fun r => Lint r trusted = Ok tt) (mf_resources m) <->
   GoodLegacy getenv trusted g /\ forall k d, In (k, d) (lg_secrets g) -> GoodLegacySecret d).
Proof.
  intros HC HM N No E.
  destruct (manifest_plain getenv parseURL isPrintHigh marshal unmarshal ordM ordA n g remote HC HM) as (p & R & E').
  rewrite E in E'. injection E' as ->. cbn [mf_resources]. rewrite Forall_cons_iff, (lint_converted _ _ _ _ HC R).
  destruct (toSecrets_ok g N No) as (P & _ & F).
  assert (X : Forall (fun r => Lint r trusted = Ok tt) (map RSecret (toSecrets g)) <-> forall k d, In (k, d) (lg_secrets g) -> GoodLegacySecret d).
  { rewrite Forall_map, !Forall_forall in *. split.
    - intros H k d I. assert (J : In k (map se_name (toSecrets g))) by (eapply Permutation_in; [exact P|]; apply (in_map fst) in I; exact I).
      apply in_map_iff in J as (s & <- & J). apply (lint_converted_secret g s trusted N No (F s J) d I), H, J.
    - intros H s J. destruct (F s J) as (d & I & _). apply (lint_converted_secret g s trusted N No (F s J) d I), (H _ _ I). }
  rewrite X. reflexivity.
Qed.

Theorem lint_converted_pipeline getenv parseURL g remote p trusted : toPipeline getenv parseURL g remote = Ok p ->
  (Lint (RPipeline p) trusted = Ok tt <-> GoodLegacy getenv trusted g).
Proof.
  intro E. assert (HC : CompleteConfig g).
  { assert (NN : ~ ~ CompleteConfig g) by (intro N; rewrite (toPipeline_panic getenv parseURL g remote N) in E; discriminate).
    intros c I. split; intro X; apply NN; intro HC; [exact (proj1 (HC c I) X)|exact (proj2 (HC c I) X)]. }
  destruct (toPipeline_ok getenv parseURL g remote HC) as (p' & E' & R). rewrite E in E'. injection E' as <-. exact (lint_converted _ _ _ _ HC R).
Qed.
Theorem distinct_accepted getenv parseURL g remote p : toPipeline getenv parseURL g remote = Ok p ->
  Forall Named (lg_clone g ++ lg_pipeline g ++ lg_services g) ->
  NoDup ("clone" :: map lc_name (lg_clone g ++ lg_pipeline g ++ lg_services g)) -> Lint (RPipeline p) true = Ok tt.
Proof.
  intros E HN HD. apply (lint_converted_pipeline _ _ _ _ _ _ E). split; [exact HN|]. split; [|discriminate].
  assert (G : NoDup (takenName getenv g ++ legacyNames getenv g ++ map lc_name (lg_services g))).
  { unfold legacyNames, takenName. rewrite !map_app in HD. inversion HD as [|? ? H1 H2]; subst.
    destruct (lg_clone g) as [|k ks]; [|cbn [app]; rewrite app_assoc in H2; exact H2].
    destruct (string_dec _ _); exact HD. }
  exists (legacyNames getenv g). split; [|exact G]. apply names_kept.
  apply NoDup_app_r in G. now apply NoDup_app_l in G.
Qed.
