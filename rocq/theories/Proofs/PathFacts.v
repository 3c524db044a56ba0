(** * PathFacts.v: the workspace paths. *)
From Coq Require Import Lia.
From Verif Require Import Model.Go Model.Types Model.Path Spec.NameSpec Proofs.GoFacts.

Lemma rooted_prefix p : rooted p = hasPrefix p "/".
Proof. destruct p as [|c p]; [reflexivity|]. unfold hasPrefix. cbn. destruct c as [[] [] [] [] [] [] [] []]; try reflexivity; destruct p; reflexivity. Qed.
Lemma components_split p : Components p (split_on "/" p).
Proof.
  split; [apply split_on_nonempty|]. split; [|symmetry; apply join_split_on].
  eapply Forall_impl; [|apply split_on_pieces]. intros c H. apply hasChar_false, H.
Qed.
Lemma components_unique p l : Components p l -> l = split_on "/" p.
Proof.
  intros (N & F & ->). symmetry. apply split_on_join; [exact N|]. eapply Forall_impl; [|exact F]. intros c H. apply hasChar_false, H.
Qed.

Lemma rev_repeat {A} (a : A) n : rev (repeat a n) = repeat a n.
Proof. induction n as [|n IH]; [reflexivity|]. cbn. rewrite IH. symmetry. apply repeat_cons. Qed.
(** The accumulator of the model, for a state of the walk. *)
Definition accOf (st : nat * list string) : list string := rev (repeat ".." (fst st) ++ snd st).
Definition GoodState (root : bool) (st : nat * list string) : Prop :=
  (root = true -> fst st = 0) /\ Forall (fun c => c <> "" /\ c <> "." /\ c <> "..") (snd st).
Lemma move_good root st c : GoodState root st -> GoodState root (move root st c).
Proof.
  destruct st as [u names]. intros [H1 H2]. cbn in *. destruct (String.eqb_spec c ""); [split; assumption|].
  destruct (String.eqb_spec c "."); [split; assumption|]. cbn [orb]. destruct (String.eqb_spec c "..").
  - destruct names as [|x names]; [split; [intros ->; reflexivity|constructor]|]. split; [exact H1|]. cbn [snd].
    destruct (@exists_last _ (x :: names)) as (l & a & E); [discriminate|]. rewrite E in *. rewrite removelast_last. apply Forall_app in H2. tauto.
  - split; [exact H1|]. apply Forall_app. split; [exact H2|]. repeat constructor; assumption.
Qed.
Lemma clean_walk root comps : forall st, GoodState root st -> cleanComps root (accOf st) comps =
  (let '(u, names) := fold_left (move root) comps st in repeat ".." u ++ names).
Proof.
  induction comps as [|c comps IH]; intros st G; cbn [cleanComps fold_left].
  - unfold accOf. rewrite rev_involutive. destruct st; reflexivity.
  - rewrite <- (IH _ (move_good root st c G)). destruct st as [u names]. destruct G as [G1 G2]. cbn [fst snd] in *. unfold move.
    replace (isEmpty c) with (String.eqb c "") by (destruct c; reflexivity).
    destruct (String.eqb c "" || String.eqb c "."); [reflexivity|]. destruct (String.eqb c ".."); [|unfold accOf; cbn [fst snd]; rewrite app_assoc, (rev_app_distr (repeat ".." u ++ names) [c]); reflexivity].
    destruct names as [|x names].
    + unfold accOf. cbn [fst snd]. rewrite !app_nil_r. destruct u as [|u].
      * cbn. destruct root; reflexivity.
      * assert (R : root = false) by (destruct root; [specialize (G1 eq_refl); discriminate|reflexivity]). rewrite R.
        rewrite !rev_repeat. reflexivity.
    + destruct (@exists_last _ (x :: names)) as (l & a & E); [discriminate|]. rewrite E in *. rewrite removelast_last. unfold accOf. cbn [fst snd].
      rewrite app_assoc, (rev_app_distr (repeat ".." u ++ l) [a]). cbn [rev app]. apply Forall_app in G2 as [_ G2]. inversion G2 as [|? ? (_ & _ & G3)]; subst.
      apply String.eqb_neq in G3. rewrite G3. destruct l; reflexivity.
Qed.
Lemma walk_good root l : GoodState root (walk root l).
Proof.
  unfold walk. assert (G : GoodState root (0, [])) by (split; [reflexivity|constructor]). revert G. generalize (0, @nil string).
  induction l as [|c l IH]; intros st G; [exact G|]. apply IH, move_good, G.
Qed.
Lemma written_empty u names : repeat ".." u ++ names <> [] -> Forall (fun c => c <> "" /\ c <> "." /\ c <> "..") names -> isEmpty (join "/" (repeat ".." u ++ names)) = false.
Proof.
  intros N F. destruct u as [|u]; cbn [repeat app] in *.
  - destruct names as [|x names]; [congruence|]. inversion F as [|? ? (H & _)]; subst. destruct names; cbn; destruct x; try congruence; reflexivity.
  - destruct (repeat ".." u ++ names); reflexivity.
Qed.
Theorem clean_written p l : Components p l -> clean p = written (rooted p) (walk (rooted p) l).
Proof.
  intro C. apply components_unique in C. subst l. unfold clean. rewrite <- rooted_prefix.
  pose proof (clean_walk (rooted p) (split_on "/" p) (0, []) (walk_good (rooted p) [])) as E. change (accOf (0, [])) with (@nil string) in E. rewrite E.
  fold (walk (rooted p) (split_on "/" p)). pose proof (walk_good (rooted p) (split_on "/" p)) as [G1 G2].
  destruct (walk (rooted p) (split_on "/" p)) as [u names]. cbn [fst snd] in *. unfold written. destruct (rooted p).
  - rewrite (G1 eq_refl). reflexivity.
  - destruct (repeat ".." u ++ names) as [|x l] eqn:R; [reflexivity|]. rewrite <- R in *. rewrite written_empty; [reflexivity|rewrite R; discriminate|exact G2].
Qed.

(** The names along the way are plain. *)
Lemma walk_plain root l : Forall (fun c => ~ In "/"%char (list_ascii_of_string c)) l -> Forall plainName (snd (walk root l)).
Proof.
  intro F. pose proof (walk_good root l) as [_ G]. assert (S : Forall (fun c => ~ In "/"%char (list_ascii_of_string c)) (snd (walk root l))).
  { clear G. unfold walk. assert (X : Forall (fun c => ~ In "/"%char (list_ascii_of_string c)) (snd (0, @nil string))) by constructor. revert X. generalize (0, @nil string).
    induction F as [|c l Hc _ IH]; intros [u names] X; [exact X|]. apply IH. cbn in *. destruct (_ || _); [exact X|]. destruct (String.eqb c "..").
    - destruct names as [|x names]; [constructor|]. destruct (@exists_last _ (x :: names)) as (l' & a & E); [discriminate|]. rewrite E in *. cbn [snd]. rewrite removelast_last. apply Forall_app in X. tauto.
    - cbn. apply Forall_app. split; [exact X|]. repeat constructor. exact Hc. }
  rewrite Forall_forall in *. intros c Hc. destruct (G c Hc) as (A & B & D). repeat split; auto.
Qed.
(** A written path is where it was written from. *)
Lemma fold_ups u : forall k, fold_left (move false) (repeat ".." u) (k, []) = (u + k, []).
Proof. induction u as [|u IH]; intro k; [reflexivity|]. cbn [repeat fold_left]. change (move false (k, []) "..") with (S k, @nil string). rewrite IH. f_equal. lia. Qed.
Lemma fold_names root names : Forall plainName names -> forall u acc, fold_left (move root) names (u, acc) = (u, acc ++ names).
Proof.
  induction 1 as [|c names (H1 & H2 & H3 & H4) _ IH]; intros u acc; cbn [fold_left]; [rewrite app_nil_r; reflexivity|].
  unfold move at 2. apply String.eqb_neq in H1, H2, H3. rewrite H1, H2, H3. cbn [orb]. rewrite IH, <- app_assoc. reflexivity.
Qed.
Theorem written_walk root u names : (root = true -> u = 0) -> Forall plainName names ->
  rooted (written root (u, names)) = root /\ exists l, Components (written root (u, names)) l /\ walk root l = (u, names).
Proof.
  intros H F. assert (NS : Forall (fun c => ~ In "/"%char (list_ascii_of_string c)) names) by (eapply Forall_impl; [|exact F]; intros c (_ & _ & _ & X); exact X).
  destruct root.
  - rewrite (H eq_refl). split; [reflexivity|]. destruct names as [|x names].
    + exists [""; ""]. split; [|reflexivity]. split; [discriminate|]. split; [repeat constructor; intros []|reflexivity].
    + exists ("" :: x :: names). split.
      * split; [discriminate|]. split; [constructor; [intros []|exact NS]|reflexivity].
      * unfold walk. cbn [fold_left]. change (move true (0, []) "") with (0, @nil string). apply (fold_names true (x :: names) F 0 []).
  - destruct (repeat ".." u ++ names) as [|y l] eqn:E.
    + destruct u; [|discriminate]. destruct names; [|discriminate]. split; [reflexivity|]. exists ["."]. split; [|reflexivity].
      split; [discriminate|]. split; [|reflexivity]. constructor; [|constructor]. intros [X|[]]. discriminate.
    + assert (W : written false (u, names) = join "/" (repeat ".." u ++ names)) by (unfold written; rewrite E; reflexivity). rewrite W.
      split.
      * destruct u as [|u]; [|cbn; destruct (repeat ".." u ++ names); reflexivity]. destruct names as [|z names]; [discriminate|].
        inversion F as [|? ? (N & _ & _ & X)]; subst. destruct z as [|a z]; [congruence|]. assert (Y : a <> "/"%char) by (intro Y; subst; apply X; left; reflexivity).
        cbn [repeat app join]. destruct names; cbn [String.append rooted]; destruct a as [[] [] [] [] [] [] [] []]; try reflexivity; congruence.
      * exists (repeat ".." u ++ names). split.
        -- split; [rewrite E; discriminate|]. split; [|reflexivity]. apply Forall_app. split; [|exact NS]. apply Forall_forall. intros c Hc. apply repeat_spec in Hc. subst.
           cbn. intros [X|[X|[]]]; discriminate.
        -- unfold walk. rewrite fold_left_app, fold_ups. rewrite Nat.add_0_r. apply (fold_names false names F u []).
Qed.

(** ** Workspaces *)
Lemma join_app l l' : l <> [] -> l' <> [] -> join "/" (l ++ l') = (join "/" l +++ "/" +++ join "/" l')%string.
Proof.
  intros N N'. induction l as [|x l IH]; [congruence|]. destruct l as [|y l].
  - cbn [app]. destruct l'; [congruence|reflexivity].
  - change ((x :: y :: l) ++ l') with (x :: ((y :: l) ++ l')). change (join "/" (x :: y :: l)) with (x +++ "/" +++ join "/" (y :: l))%string.
    rewrite !sapp_assoc. rewrite <- IH by discriminate. reflexivity.
Qed.
Lemma components_join a b la lb : Components a la -> Components b lb -> Components (a +++ "/" +++ b)%string (la ++ lb).
Proof.
  intros (N & F & ->) (N' & F' & ->). split; [destruct la; [congruence|discriminate]|]. split; [apply Forall_app; auto|]. symmetry. apply join_app; assumption.
Qed.
Lemma rooted_app a b : a <> "" -> rooted (a +++ b)%string = rooted a.
Proof. destruct a as [|c a]; [congruence|]. intros _. reflexivity. Qed.
Lemma backslashes_spec s : toWindowsPath s = backslashes s.
Proof.
  unfold toWindowsPath, replaceAll. induction s as [|c s IH]; [reflexivity|]. cbn [replace_skip backslashes String.prefix].
  destruct (ascii_dec "/" c) as [<-|N].
  - destruct s; cbn [String.length Nat.sub]; [reflexivity|]. rewrite IH. reflexivity.
  - rewrite IH. destruct (Ascii.eqb_spec c "/"); [congruence|reflexivity].
Qed.
Theorem workspace_spec p base0 lb lp : base0 = (if String.eqb (ws_base (pi_workspace p)) "" then "/drone/src" else ws_base (pi_workspace p)) ->
  Components base0 lb -> Components (ws_path (pi_workspace p)) lp ->
  let full0 := written (rooted base0) (walk (rooted base0) (lb ++ lp)) in
  createWorkspace p = if String.eqb (pl_os (pi_platform p)) "windows"
    then ("c:" +++ backslashes base0, backslashes (ws_path (pi_workspace p)), "c:" +++ backslashes full0)%string
    else (base0, ws_path (pi_workspace p), full0).
Proof.
  intros E CB CP full0. assert (E' : (if isEmpty (ws_base (pi_workspace p)) then workspacePath else ws_base (pi_workspace p)) = base0).
  { rewrite E. destruct (ws_base (pi_workspace p)); reflexivity. }
  assert (N : base0 <> "") by (rewrite E; destruct (String.eqb_spec (ws_base (pi_workspace p)) ""); [discriminate|assumption]).
  assert (J : pathJoin base0 (ws_path (pi_workspace p)) = full0).
  { unfold pathJoin. replace (isEmpty base0) with false by (clear -N; destruct base0; [congruence|reflexivity]). cbn [negb].
    rewrite (clean_written _ _ (components_join _ _ _ _ CB CP)). unfold full0. rewrite rooted_app by exact N. reflexivity. }
  unfold createWorkspace. rewrite E'. rewrite J. unfold toWindowsDrive. rewrite !backslashes_spec. reflexivity.
Qed.

Lemma walk_app root l l' : walk root (l ++ l') = fold_left (move root) l' (walk root l).
Proof. apply fold_left_app. Qed.
Lemma fold_below root l : ~ In ".." l -> forall u names, exists more, fold_left (move root) l (u, names) = (u, names ++ more).
Proof.
  induction l as [|c l IH]; intros N u names; [exists []; rewrite app_nil_r; reflexivity|]. cbn [fold_left]. unfold move at 2.
  destruct (_ || _); [apply IH; intro X; apply N; right; exact X|]. destruct (String.eqb_spec c "..") as [->|D]; [exfalso; apply N; left; reflexivity|].
  destruct (IH ltac:(intro X; apply N; right; exact X) u (names ++ [c])) as (more & E). exists ([c] ++ more). rewrite E, <- app_assoc. reflexivity.
Qed.
Theorem workspace_below base lb lp : rooted base = true -> Components base lb -> ~ In ".." lp ->
  Below (written true (walk true lb)) (written true (walk true (lb ++ lp))).
Proof.
  intros R CB N. rewrite walk_app. destruct (walk true lb) as [u names] eqn:W. destruct (fold_below true lp N u names) as (more & ->).
  unfold Below, written. destruct more as [|m more]; [left; rewrite app_nil_r; reflexivity|right]. destruct names as [|x names].
  - exists (join "/" (m :: more)). reflexivity.
  - exists (join "/" (m :: more)). rewrite join_app by discriminate. assert (E : String.eqb ("/" +++ join "/" (x :: names))%string "/" = false).
    { apply String.eqb_neq. intro X. pose proof (walk_good true lb) as [_ G]. rewrite W in G. cbn in G. inversion G as [|? ? (Hx & _)]; subst.
      cbn in X. injection X as X. destruct names; destruct x; cbn in X; try congruence; discriminate. }
    rewrite E, !sapp_assoc. reflexivity.
Qed.
Lemma backslashes_none s : ~ In "/"%char (list_ascii_of_string (backslashes s)).
Proof. induction s as [|c s IH]; cbn; [auto|]. intros [X|X]; [|exact (IH X)]. destruct (Ascii.eqb_spec c "/"); [discriminate|congruence]. Qed.
