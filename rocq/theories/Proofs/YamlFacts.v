(** * YamlFacts.v: reading the layout of a tree gives the tree. *)
From Coq Require Import Lia.
From Verif Require Import Model.Go Model.Types Model.Decode Spec.DecodeSpec Spec.YamlSpec.
From Verif Require Import Proofs.GoFacts Proofs.PrettyTree Proofs.PrettyLayout.

Transparent render text.

Lemma forallb_Forall : forall {A} (f : A -> bool) l, forallb f l = true -> Forall (fun a => f a = true) l.
Proof. intros A f l H. apply Forall_forall, forallb_forall, H. Qed.
Lemma Forall2_in_r : forall {A B} (R : A -> B -> Prop) l l' b, Forall2 R l l' -> In b l' -> exists a, In a l /\ R a b.
Proof.
  intros A B R l l' b F. induction F as [|x y l l' H F IH]; [intros []|]. intros [<-|Hb]; [exists x; split; [left; reflexivity|exact H]|].
  destruct (IH Hb) as (a & Ha & Hr). exists a. split; [right; exact Ha|exact Hr].
Qed.
Lemma Forall2_impl_in : forall {A B} (R S : A -> B -> Prop) l l', (forall a b, In a l -> R a b -> S a b) -> Forall2 R l l' -> Forall2 S l l'.
Proof.
  intros A B R S l l' H F. induction F as [|x y l l' Hx F IH]; constructor; [apply H; [left; reflexivity|exact Hx]|].
  apply IH. intros a b Ha. apply H. right. exact Ha.
Qed.

(** ** Induction on trees *)
Lemma tree_induction : forall P : tree -> Prop,
  (forall s, P (TScalar s)) -> (forall b s, P (TBelow b s)) -> (forall l, P (TFold l)) ->
  (forall l, Forall P (entriesOf l) -> P (TSeq l)) ->
  (forall l, Forall (fun kt => P (snd kt)) (entriesOf l) -> P (TMap l)) ->
  forall t, P t.
Proof.
  intros P HS HB HF HQ HM. fix IH 1. intros [s|b s|l|l|l].
  - apply HS.
  - apply HB.
  - apply HF.
  - apply HQ. induction l as [|[t|] l L]; [constructor| |exact L]. constructor; [apply IH|exact L].
  - apply HM. induction l as [|[[k t]|] l L]; [constructor| |exact L]. constructor; [apply IH|exact L].
Qed.

Definition startsBlank (s : string) : bool := match s with String c _ => isBlank c | "" => false end.
(** What a line of a block may hold. *)
Definition oneLine (s : string) : bool := negb (hasChar NL s) && negb (hasChar CR s).
Definition Clean (s : string) : Prop := s <> "" /\ startsBlank s = false /\ oneLine s = true.
Lemma oneLine_app : forall a b, oneLine (a +++ b) = oneLine a && oneLine b.
Proof. intros. unfold oneLine. rewrite !hasChar_app. destruct (hasChar NL a), (hasChar CR a), (hasChar NL b), (hasChar CR b); reflexivity. Qed.
Fixpoint vanishes (t : tree) : bool :=
  match t with
  | TScalar _ | TBelow _ _ | TFold _ => false
  | TSeq l => forallb (fun o => match o with Some t => vanishes t | None => true end) l
  | TMap l => forallb (fun o => match o with Some _ => false | None => true end) l
  end.

Section Yaml.
  Variable resolve : string -> node.
  Notation readScalar := (YamlSpec.readScalar resolve).
  Notation readKey := (YamlSpec.readKey resolve).
  Notation readBlock := (YamlSpec.readBlock resolve).

  Definition scalarNode (s : string) : node := match readScalar s with Some n => n | None => NNull end.
  Fixpoint nodeOf (t : tree) : node :=
    match t with
    | TScalar s | TBelow _ s => scalarNode s
    | TFold l => NStr (join " " l +++ nl)%string
    | TSeq l =>
        if forallb (fun o => match o with Some t => vanishes t | None => true end) l then NNull
        else NSeq (flat_map (fun o => match o with Some t => if vanishes t then [] else [nodeOf t] | None => [] end) l)
    | TMap l =>
        match entriesOf l with
        | [] => NNull
        | _ => NMap (flat_map (fun o => match o with Some (k, t) => [(scalarNode k, nodeOf t)] | None => [] end) l)
        end
    end.
  Fixpoint height (t : tree) : nat :=
    match t with
    | TScalar _ | TBelow _ _ | TFold _ => 1
    | TSeq l => S (fold_right (fun o m => match o with Some t => if vanishes t then m else Nat.max (height t) m | None => m end) 0 l)
    | TMap l => S (fold_right (fun o m => match o with Some (_, t) => Nat.max (height t) m | None => m end) 0 l)
    end.

  (** A scalar with all its text on one line, in any position. *)
  Definition GoodScalar (s : string) : Prop :=
    Clean s /\ s <> ">" /\ isDash s = false /\ readKey s = None /\ readScalar s <> None.
  Definition spaced (v : string) : string := if isEmpty v then "" else (" " +++ v)%string.
  Definition GoodKey (k : string) : Prop :=
    Clean k /\ readScalar k <> None /\
    forall v, readKey (k +++ ":" +++ spaced v)%string = Some (scalarNode k, v) /\ isDash (k +++ ":" +++ spaced v)%string = false.
  Fixpoint WF (t : tree) : Prop :=
    match t with
    | TScalar s => GoodScalar s
    | TBelow b s => 1 <= b /\ GoodScalar s
    | TFold l => l <> [] /\ Forall Clean l
    | TSeq l => fold_right (fun o p => match o with Some t => (WF t /\ match t with TFold _ => False | _ => True end) /\ p | None => p end) True l
    | TMap l => fold_right (fun o p => match o with Some (k, t) => (GoodKey k /\ WF t) /\ p | None => p end) True l
    end.
  Lemma WF_seq : forall l, WF (TSeq l) <-> Forall (fun t => WF t /\ match t with TFold _ => False | _ => True end) (entriesOf l).
  Proof.
    intro l. cbn [WF]. induction l as [|[t|] l IH]; cbn [fold_right entriesOf flat_map app].
    - split; [constructor|trivial].
    - rewrite IH. split; [intros [A B]; constructor; assumption|intro F; inversion F; auto].
    - exact IH.
  Qed.
  Lemma WF_map : forall l, WF (TMap l) <-> Forall (fun kt => GoodKey (fst kt) /\ WF (snd kt)) (entriesOf l).
  Proof.
    intro l. cbn [WF]. induction l as [|[[k t]|] l IH]; cbn [fold_right entriesOf flat_map app].
    - split; [constructor|trivial].
    - rewrite IH. split; [intros [A B]; constructor; assumption|intro F; inversion F; auto].
    - exact IH.
  Qed.
  Definition live (l : list (option tree)) : list tree := filter (fun t => negb (vanishes t)) (entriesOf l).
  Lemma nodeOf_seq : forall l, nodeOf (TSeq l) = match live l with [] => NNull | ts => NSeq (map nodeOf ts) end.
  Proof.
    intro l. cbn [nodeOf]. unfold live.
    assert (E : flat_map (fun o => match o with Some t => if vanishes t then [] else [nodeOf t] | None => [] end) l
              = map nodeOf (filter (fun t => negb (vanishes t)) (entriesOf l))).
    { induction l as [|[t|] l IH]; [reflexivity| |exact IH]. cbn [flat_map entriesOf app filter].
      destruct (vanishes t); cbn [negb app map]; [exact IH|]. f_equal. exact IH. }
    rewrite E. clear E.
    assert (V : forallb (fun o => match o with Some t => vanishes t | None => true end) l
              = match filter (fun t => negb (vanishes t)) (entriesOf l) with [] => true | _ => false end).
    { induction l as [|[t|] l IH]; [reflexivity| |exact IH]. cbn [forallb entriesOf flat_map app filter].
      destruct (vanishes t); cbn [negb andb]; [exact IH|reflexivity]. }
    rewrite V. destruct (filter _ _); reflexivity.
  Qed.
  Lemma nodeOf_map : forall l, nodeOf (TMap l) = match entriesOf l with [] => NNull | es => NMap (map (fun kt => (scalarNode (fst kt), nodeOf (snd kt))) es) end.
  Proof.
    intro l. cbn [nodeOf].
    assert (E : flat_map (fun o : option (string * tree) => match o with Some (k, t) => [(scalarNode k, nodeOf t)] | None => [] end) l
              = map (fun kt => (scalarNode (fst kt), nodeOf (snd kt))) (entriesOf l)).
    { induction l as [|[[k t]|] l IH]; [reflexivity| |exact IH]. cbn [flat_map entriesOf app map fst snd]. f_equal. exact IH. }
    rewrite E. destruct (entriesOf l); reflexivity.
  Qed.
  Lemma height_seq : forall l t, In t (live l) -> S (height t) <= height (TSeq l).
  Proof.
    intros l t H. cbn [height]. apply le_n_S. unfold live in H. induction l as [|[t'|] l IH]; [destruct H| |exact (IH H)].
    cbn [entriesOf flat_map app filter fold_right] in *. destruct (vanishes t'); cbn [negb] in H; [exact (IH H)|].
    destruct H as [->|H]; [lia|]. specialize (IH H). lia.
  Qed.
  Lemma height_map : forall l k t, In (k, t) (entriesOf l) -> S (height t) <= height (TMap l).
  Proof.
    intros l k t H. cbn [height]. apply le_n_S. induction l as [|[[k' t']|] l IH]; [destruct H| |exact (IH H)].
    cbn [entriesOf flat_map app fold_right] in *. destruct H as [E|H]; [injection E as -> ->; lia|]. specialize (IH H). lia.
  Qed.

  (** ** Lines *)
  Definition lineOf (o : option (nat * string)) : line := match o with Some p => p | None => (0, "") end.
  Definition rl (n : nat) (t : tree) : list line := map lineOf (render n t).
  Definition Blank (ls : list line) : Prop := forallb blankLine ls = true.
  Lemma blank_app : forall a b, Blank a -> Blank b -> Blank (a ++ b).
  Proof. intros a b A B. unfold Blank. rewrite forallb_app. rewrite A, B. reflexivity. Qed.
  Lemma dropBlank_app : forall a b, Blank a -> dropBlank (a ++ b) = dropBlank b.
  Proof.
    induction a as [|l a IH]; intros b B; [reflexivity|]. cbn in B. apply andb_prop in B. destruct B as [B1 B2]. cbn. rewrite B1. apply IH, B2.
  Qed.
  Lemma dropBlank_all : forall a, Blank a -> dropBlank a = [].
  Proof. intros a B. rewrite <- (app_nil_r a). rewrite dropBlank_app by exact B. reflexivity. Qed.
  Lemma dropBlank_idem : forall a, dropBlank (dropBlank a) = dropBlank a.
  Proof. induction a as [|l a IH]; [reflexivity|]. cbn. destruct (blankLine l) eqn:E; [exact IH|]. cbn. rewrite E. reflexivity. Qed.
  Lemma readBlock_drop : forall f ls, readBlock f ls = readBlock f (dropBlank ls).
  Proof. intros [|f] ls; [reflexivity|]. cbn [YamlSpec.readBlock]. rewrite dropBlank_idem. reflexivity. Qed.
  Lemma readBlock_same : forall f a b, dropBlank a = dropBlank b -> readBlock f a = readBlock f b.
  Proof. intros f a b E. rewrite (readBlock_drop f a), (readBlock_drop f b), E. reflexivity. Qed.

  Lemma group_skip : forall starts xs ys, Forall (fun l => starts l = false) xs ->
    group starts (xs ++ ys) = (xs ++ fst (group starts ys), snd (group starts ys)).
  Proof.
    intros starts xs ys F. induction F as [|x xs E F IH]; cbn [app].
    - destruct (group starts ys); reflexivity.
    - cbn [group]. rewrite IH, E. reflexivity.
  Qed.
  Lemma group_drop : forall starts, (forall l, blankLine l = true -> starts l = false) -> forall ls,
    Blank (fst (group starts ls)) -> group starts (dropBlank ls) = ([], snd (group starts ls)).
  Proof.
    intros starts S. induction ls as [|l ls IH]; [reflexivity|]. cbn [group dropBlank]. intro B.
    destruct (group starts ls) as [before gs] eqn:G. destruct (starts l) eqn:E.
    - destruct (blankLine l) eqn:Bl; [rewrite (S l Bl) in E; discriminate|]. cbn [group]. rewrite G, E. reflexivity.
    - cbn in B. apply andb_prop in B. destruct B as [B1 B2]. rewrite B1. cbn [snd]. exact (IH B2).
  Qed.

  (** Every line of a layout is clean and indented. *)
  Definition Inside (n : nat) (o : option (nat * string)) : Prop :=
    match o with None => True | Some (m, s) => n <= m /\ Clean s end.
  Definition Deeper (n : nat) (o : option (nat * string)) : Prop :=
    match o with None => True | Some (m, s) => n < m \/ m = n /\ isDash s = true end.
  Lemma clean_app : forall s t, Clean s -> oneLine t = true -> Clean (s +++ t).
  Proof.
    intros s t (A & B & C) D. split; [|split].
    - destruct s; [congruence|discriminate].
    - destruct s as [|c s]; [congruence|exact B].
    - rewrite oneLine_app, C, D. reflexivity.
  Qed.
  Lemma clean_dash : forall s, Clean s -> Clean ("- " +++ s).
  Proof. intros s (A & B & C). split; [discriminate|]. split; [reflexivity|]. rewrite oneLine_app, C. reflexivity. Qed.
  Lemma hang_inside : forall n ls, Forall (Inside (2 + n)) ls -> Forall (Inside n) (hang n ls) /\ Forall (Deeper n) (hang n ls).
  Proof.
    intros n ls F. induction F as [|[[m s]|] ls E F IH]; cbn [hang]; [split; constructor| |].
    - assert (D : Forall (Inside n) ls /\ Forall (Deeper n) ls).
      { clear - F. split; (eapply Forall_impl; [|exact F]); intros [[m s]|]; cbn; try tauto; intros [A B]; [split; [lia|exact B]|left; lia]. }
      destruct D. split; constructor; try assumption.
      + split; [lia|apply clean_dash, E].
      + right. split; [reflexivity|]. reflexivity.
    - destruct IH. split; constructor; try assumption; exact I.
  Qed.
  Lemma flat_map_Forall : forall {A B} (P : B -> Prop) (f : A -> list B) l, Forall (fun a => Forall P (f a)) l -> Forall P (flat_map f l).
  Proof. intros A B P f l F. induction F; [constructor|]. cbn. apply Forall_app. split; assumption. Qed.
  Definition entryHead (t : tree) : string := match t with TScalar s => s | TFold _ => ">" | _ => "" end.
  Definition entryRest (n : nat) (t : tree) : list (option (nat * string)) :=
    match t with
    | TScalar _ => [] | TBelow b s => [Some (b + n, s)] | TFold _ => render (2 + n) t | TSeq _ => render n t | TMap _ => render (2 + n) t
    end.
  Lemma entryLines_split : forall n k t, (match t with TScalar s => s <> "" | _ => True end) ->
    entryLines n k t = Some (n, k +++ ":" +++ spaced (entryHead t))%string :: entryRest n t.
  Proof.
    intros n k t H. rewrite entryLines_eq. destruct t as [[|c s]| | | |]; try reflexivity. congruence.
  Qed.
  Lemma entries_forall : forall {A} (P : option A -> Prop) l, P None -> Forall (fun a => P (Some a)) (entriesOf l) -> Forall P l.
  Proof.
    intros A P l N F. induction l as [|[a|] l IH]; [constructor| |].
    - cbn in F. inversion F; subst. constructor; [assumption|apply IH; assumption].
    - constructor; [exact N|apply IH, F].
  Qed.
  Lemma wf_scalar_nonempty : forall t, WF t -> match t with TScalar s => s <> "" | _ => True end.
  Proof. intros [] H; try exact I. apply H. Qed.
  Lemma inside_up : forall n ls, Forall (Inside (2 + n)) ls -> Forall (Inside n) ls /\ Forall (Deeper n) ls.
  Proof.
    intros n ls F. split; (eapply Forall_impl; [|exact F]); intros [[m s]|]; cbn; try tauto; intros [A B]; [split; [lia|exact B]|left; lia].
  Qed.
  Lemma render_inside : forall t, WF t -> forall n,
    Forall (Inside n) (render n t) /\ Forall (Inside n) (entryRest n t) /\ Forall (Deeper n) (entryRest n t).
  Proof.
    apply (tree_induction (fun t => WF t -> forall n,
      Forall (Inside n) (render n t) /\ Forall (Inside n) (entryRest n t) /\ Forall (Deeper n) (entryRest n t))).
    - intros s W n. split; [|split; constructor]. constructor; [|constructor]. split; [lia|apply W].
    - intros b s [B W] n. split; [|split]; repeat constructor; try lia; apply W.
    - intros l W n.
      assert (F : forall m, Forall (Inside m) (render m (TFold l))).
      { intro m. cbn [render]. apply Forall_forall. intros o H. apply in_map_iff in H. destruct H as (s & <- & H).
        split; [lia|]. exact (proj1 (Forall_forall _ _) (proj2 W) s H). }
      split; [apply F|]. apply inside_up, F.
    - intros l IH W n. apply WF_seq in W.
      assert (F : Forall (Inside n) (render n (TSeq l)) /\ Forall (Deeper n) (render n (TSeq l))).
      { cbn [render]. split; apply flat_map_Forall; (apply entries_forall; [constructor; [exact I|constructor]|]).
        - apply Forall_forall. intros t H. apply hang_inside.
          apply (proj1 (Forall_forall _ _) IH t H). apply (proj1 (Forall_forall _ _) W t H).
        - apply Forall_forall. intros t H. apply hang_inside.
          apply (proj1 (Forall_forall _ _) IH t H). apply (proj1 (Forall_forall _ _) W t H). }
      split; [apply F|]. cbn [entryRest]. exact F.
    - intros l IH W n. apply WF_map in W.
      assert (F : forall m, Forall (Inside m) (render m (TMap l))).
      { intro m. clear n. induction l as [|[[k t]|] l L].
        - constructor.
        - rewrite render_map_cons. cbn [entriesOf flat_map app] in *. inversion IH; inversion W; subst. cbn [fst snd] in *.
          apply Forall_app. split; [|apply L; assumption]. rewrite entryLines_split by (apply wf_scalar_nonempty; tauto).
          constructor; [|apply H1; tauto]. split; [lia|].
          assert (Hh : oneLine (entryHead t) = true).
          { destruct t; try reflexivity. apply H5. }
          apply clean_app; [apply H5|]. unfold spaced. destruct (isEmpty (entryHead t)); [reflexivity|]. rewrite !oneLine_app, Hh. reflexivity.
        - rewrite render_map_split, render_blank. constructor; [exact I|]. apply L; assumption. }
      split; [apply F|]. cbn [entryRest]. apply inside_up, F.
  Qed.

  (** ** Blocks *)
  Lemma hang_blanks : forall n k ls, hang n (repeat None k ++ ls) = repeat None k ++ hang n ls.
  Proof. induction k as [|k IH]; intro ls; [reflexivity|]. cbn [repeat app hang]. rewrite IH. reflexivity. Qed.
  Lemma repeat_app : forall {A} (x : A) a b, repeat x (a + b) = repeat x a ++ repeat x b.
  Proof. induction a as [|a IH]; intro b; [reflexivity|]. cbn. rewrite IH. reflexivity. Qed.
  Lemma blanks_blank : forall k, Blank (map lineOf (repeat None k)).
  Proof. induction k as [|k IH]; [reflexivity|exact IH]. Qed.
  Lemma render_shape : forall t, WF t -> match t with TFold _ => False | _ => True end -> forall n,
    (vanishes t = true -> exists k, render n t = repeat None k) /\
    (vanishes t = false -> exists k s r, render n t = repeat None k ++ Some (n, s) :: r).
  Proof.
    apply (tree_induction (fun t => WF t -> match t with TFold _ => False | _ => True end -> forall n,
      (vanishes t = true -> exists k, render n t = repeat None k) /\
      (vanishes t = false -> exists k s r, render n t = repeat None k ++ Some (n, s) :: r))).
    - intros s W _ n. split; [discriminate|]. exists 0, s, []. reflexivity.
    - intros b s W _ n. split; [discriminate|]. exists 0, s, []. reflexivity.
    - intros l _ [].
    - intros l IH W _ n. apply WF_seq in W. induction l as [|[t|] l L].
      + split; [exists 0; reflexivity|discriminate].
      + cbn [entriesOf flat_map app] in IH, W. inversion IH; inversion W; subst. specialize (L H2 H6). cbn [vanishes forallb] in L |- *.
        rewrite render_seq_cons. cbn [render] in *. cbn [flat_map]. rewrite app_nil_r.
        destruct (H1 (proj1 H5) (proj2 H5) (2 + n)) as [V1 V2]. destruct (vanishes t); cbn [andb].
        * destruct (V1 eq_refl) as [k Ek]. change (S (S n)) with (2 + n). rewrite Ek. rewrite <- (app_nil_r (repeat None k)), hang_blanks. cbn [hang]. rewrite app_nil_r.
          split; intro V.
          -- destruct (proj1 L V) as [k' ->]. exists (k + k'). rewrite repeat_app. reflexivity.
          -- destruct (proj2 L V) as (k' & s & r & ->). exists (k + k'), s, r. rewrite repeat_app, app_assoc. reflexivity.
        * destruct (V2 eq_refl) as (k & s & r & Ek). change (S (S n)) with (2 + n). rewrite Ek, hang_blanks. cbn [hang]. split; [discriminate|]. intros _.
          do 3 eexists. rewrite <- app_assoc. cbn [app]. reflexivity.
      + specialize (L IH W). cbn [vanishes forallb andb] in L |- *. rewrite render_seq_cons. change (render n (TSeq [None])) with [@None (nat * string)].
        split; intro V.
        * destruct (proj1 L V) as [k' ->]. exists (S k'). reflexivity.
        * destruct (proj2 L V) as (k' & s & r & ->). exists (S k'), s, r. reflexivity.
    - intros l _ W _ n. apply WF_map in W. induction l as [|[[k t]|] l L].
      + split; [exists 0; reflexivity|discriminate].
      + cbn [entriesOf flat_map app] in W. inversion W; subst. cbn [fst snd] in *. cbn [vanishes forallb andb]. split; [discriminate|]. intros _.
        rewrite render_map_cons, entryLines_split by (apply wf_scalar_nonempty; tauto). exists 0. do 2 eexists. reflexivity.
      + specialize (L W). cbn [vanishes forallb andb] in L |- *. rewrite render_map_split, render_blank. split; intro V.
        * destruct (proj1 L V) as [k' ->]. exists (S k'). reflexivity.
        * destruct (proj2 L V) as (k' & s & r & ->). exists (S k'), s, r. reflexivity.
  Qed.

  Lemma blank_starts : forall n l, blankLine l = true -> startsItem n l = false /\ startsEntry n l = false.
  Proof.
    intros n [m s] B. unfold startsItem, startsEntry. rewrite B. cbn in *. destruct s; [|discriminate]. cbn. rewrite !andb_false_r. split; reflexivity.
  Qed.
  Lemma blanks_start : forall n ls, Blank ls -> Forall (fun l => startsItem n l = false) ls /\ Forall (fun l => startsEntry n l = false) ls.
  Proof.
    intros n ls B. apply forallb_Forall in B. split; (eapply Forall_impl; [|exact B]); intros l H; apply (blank_starts n l H).
  Qed.
  Lemma inside_start : forall n ls, Forall (Inside (2 + n)) ls -> Forall (fun l => startsItem n l = false) (map lineOf ls).
  Proof.
    intros n ls F. apply Forall_map. eapply Forall_impl; [|exact F]. intros [[m s]|] H; [|apply blank_starts; reflexivity].
    unfold startsItem. cbn in *. destruct (Nat.eqb_spec m n); [lia|reflexivity].
  Qed.
  Lemma deeper_start : forall n ls, Forall (Deeper n) ls -> Forall (fun l => startsEntry n l = false) (map lineOf ls).
  Proof.
    intros n ls F. apply Forall_map. eapply Forall_impl; [|exact F]. intros [[m s]|] H; [|apply blank_starts; reflexivity].
    unfold startsEntry. cbn in *. destruct H as [H|[-> H]]; [destruct (Nat.eqb_spec m n); [lia|reflexivity]|]. rewrite H, andb_false_r. reflexivity.
  Qed.

  Definition ItemGroup (n : nat) (t : tree) (g : line * list line) : Prop := exists s r b k,
    g = ((n, "- " +++ s)%string, map lineOf r ++ b) /\ Blank b /\ Clean s /\ Forall (Inside (2 + n)) r /\
    render (2 + n) t = repeat None k ++ Some (2 + n, s) :: r.
  Lemma group_seq : forall n l post, WF (TSeq l) -> Blank post ->
    Blank (fst (group (startsItem n) (rl n (TSeq l) ++ post))) /\
    Forall2 (ItemGroup n) (live l) (snd (group (startsItem n) (rl n (TSeq l) ++ post))).
  Proof.
    intros n l post W B. apply WF_seq in W. induction l as [|[t|] l IH].
    - unfold rl. cbn [render flat_map map app]. rewrite <- (app_nil_r post). rewrite group_skip by apply blanks_start, B. cbn. rewrite app_nil_r.
      split; [exact B|constructor].
    - cbn [entriesOf flat_map app] in W. inversion W; subst. specialize (IH H2). unfold rl in *.
      rewrite render_seq_cons, map_app, <- app_assoc.
      destruct (group (startsItem n) (map lineOf (render n (TSeq l)) ++ post)) as [before gs] eqn:G. cbn [fst snd] in IH. destruct IH as [IB IG].
      destruct (render_shape t (proj1 H1) (proj2 H1) (2 + n)) as [V1 V2]. pose proof (proj1 (render_inside t (proj1 H1) (2 + n))) as In2.
      unfold live in *. cbn [entriesOf flat_map app filter]. destruct (vanishes t) eqn:Vt; cbn [negb].
      + destruct (V1 eq_refl) as [k Ek]. assert (E1 : render n (TSeq [Some t]) = repeat None k).
        { cbn [render flat_map] in *. change (S (S n)) with (2 + n). rewrite Ek. rewrite <- (app_nil_r (repeat None k)), hang_blanks. cbn [hang]. rewrite !app_nil_r. reflexivity. }
        rewrite E1. rewrite group_skip by apply blanks_start, blanks_blank. rewrite G. cbn [fst snd]. split; [|exact IG].
        apply blank_app; [apply blanks_blank|exact IB].
      + destruct (V2 eq_refl) as (k & s & r & Ek). assert (E1 : render n (TSeq [Some t]) = repeat None k ++ Some (n, "- " +++ s)%string :: r).
        { cbn [render flat_map] in *. change (S (S n)) with (2 + n). rewrite Ek, hang_blanks. cbn [hang]. rewrite !app_nil_r. reflexivity. }
        rewrite E1. rewrite map_app, <- app_assoc. cbn [map app lineOf]. rewrite group_skip by apply blanks_start, blanks_blank.
        rewrite Ek in In2. apply Forall_app in In2. destruct In2 as [_ In2]. apply Forall_cons_iff in In2. destruct In2 as [[_ Cs] In3].
        cbn [group]. rewrite group_skip by apply inside_start, In3. rewrite G. cbn [fst snd].
        assert (St : startsItem n (n, "- " +++ s)%string = true) by (unfold startsItem; cbn; rewrite Nat.eqb_refl; reflexivity).
        rewrite St. cbn [fst snd]. rewrite app_nil_r. split; [apply blanks_blank|]. constructor; [|exact IG].
        exists s, r, before, k. auto.
    - specialize (IH W). unfold rl in *. rewrite render_seq_cons, map_app, <- app_assoc. change (map lineOf (render n (TSeq [None]))) with [(0, "")].
      change (live (None :: l)) with (live l). cbn [app group].
      destruct (group (startsItem n) (map lineOf (render n (TSeq l)) ++ post)) as [before gs]. cbn [fst snd] in IH.
      rewrite (proj1 (blank_starts n (0, "") eq_refl)). exact IH.
  Qed.
  Definition EntryGroup (n : nat) (kt : string * tree) (g : line * list line) : Prop := exists b,
    g = ((n, fst kt +++ ":" +++ spaced (entryHead (snd kt)))%string, map lineOf (entryRest n (snd kt)) ++ b) /\ Blank b.
  Lemma group_map : forall n l post, WF (TMap l) -> Blank post ->
    Blank (fst (group (startsEntry n) (rl n (TMap l) ++ post))) /\
    Forall2 (EntryGroup n) (entriesOf l) (snd (group (startsEntry n) (rl n (TMap l) ++ post))).
  Proof.
    intros n l post W B. apply WF_map in W. induction l as [|[[k t]|] l IH].
    - unfold rl. cbn [render flat_map map app]. rewrite <- (app_nil_r post). rewrite group_skip by apply blanks_start, B. cbn. rewrite app_nil_r.
      split; [exact B|constructor].
    - cbn [entriesOf flat_map app] in W. inversion W; subst. specialize (IH H2). unfold rl in *. cbn [fst snd] in H1.
      rewrite render_map_cons, map_app, <- app_assoc.
      destruct (group (startsEntry n) (map lineOf (render n (TMap l)) ++ post)) as [before gs] eqn:G. cbn [fst snd] in IH. destruct IH as [IB IG].
      rewrite entryLines_split by (apply wf_scalar_nonempty; tauto). cbn [map app lineOf group].
      destruct (render_inside t (proj2 H1) n) as (_ & _ & De). rewrite group_skip by apply deeper_start, De. rewrite G. cbn [fst snd].
      assert (St : startsEntry n (n, k +++ ":" +++ spaced (entryHead t))%string = true).
      { unfold startsEntry, blankLine. cbn [fst snd]. rewrite Nat.eqb_refl. destruct H1 as [(Ck & _ & Hk) _]. rewrite (proj2 (Hk (entryHead t))).
        destruct k; [destruct Ck; congruence|reflexivity]. }
      rewrite St. cbn [fst snd]. split; [reflexivity|]. constructor; [|exact IG]. exists before. auto.
    - specialize (IH W). unfold rl in *. rewrite render_map_split, render_blank, map_app, <- app_assoc. 
      change (entriesOf (None :: l)) with (entriesOf l). cbn [map app group lineOf].
      destruct (group (startsEntry n) (map lineOf (render n (TMap l)) ++ post)) as [before gs]. cbn [fst snd] in IH.
      rewrite (proj2 (blank_starts n (0, "") eq_refl)). exact IH.
  Qed.
  Lemma traverse_map : forall {A B C} (f : B -> option C) (h : A -> C) ts gs,
    Forall2 (fun t g => f g = Some (h t)) ts gs -> optTraverse f gs = Some (map h ts).
  Proof. intros A B C f h ts gs F. induction F as [|t g ts gs E F IH]; [reflexivity|]. cbn [optTraverse map]. rewrite E. cbn in IH. rewrite IH. reflexivity. Qed.
  Lemma leading_clean : forall s n, Clean s -> leading n s = (n, s).
  Proof. intros [|c s] n (A & B & _); [congruence|]. cbn in *. rewrite B. reflexivity. Qed.
  Lemma inside_item : forall n r b, Forall (Inside (2 + n)) r -> Blank b -> forallb (inItem n) (map lineOf r ++ b) = true.
  Proof.
    intros n r b F B. rewrite forallb_app. apply andb_true_intro. split.
    - apply forallb_forall. intros l H. apply in_map_iff in H. destruct H as (o & <- & H). pose proof (proj1 (Forall_forall _ _) F o H) as I.
      destruct o as [[m s]|]; [|reflexivity]. unfold inItem. cbn in *. apply orb_true_intro. right. apply Nat.ltb_lt. lia.
    - apply forallb_forall. intros l H. unfold inItem. rewrite (proj1 (forallb_forall _ _) B l H). reflexivity.
  Qed.
  Lemma deeper_entry : forall n r b, Forall (Deeper n) r -> Blank b -> forallb (inEntry n) (map lineOf r ++ b) = true.
  Proof.
    intros n r b F B. rewrite forallb_app. apply andb_true_intro. split.
    - apply forallb_forall. intros l H. apply in_map_iff in H. destruct H as (o & <- & H). pose proof (proj1 (Forall_forall _ _) F o H) as I.
      destruct o as [[m s]|]; [|reflexivity]. unfold inEntry, inItem, startsItem. cbn in I. cbn [lineOf fst snd]. destruct I as [I|[-> I]].
      + apply Nat.ltb_lt in I. rewrite I, orb_true_r. reflexivity.
      + rewrite Nat.eqb_refl, I. apply orb_true_r.
    - apply forallb_forall. intros l H. unfold inEntry, inItem. rewrite (proj1 (forallb_forall _ _) B l H). reflexivity.
  Qed.
  Lemma read_scalar_block : forall f n s post, GoodScalar s -> Blank post -> readBlock (S f) ((n, s) :: post) = Some (scalarNode s).
  Proof.
    intros f n s post (C & _ & D & K & R) B. cbn [YamlSpec.readBlock dropBlank]. unfold blankLine at 1. cbn [snd].
    destruct s as [|c s]; [destruct C; congruence|]. cbn [isEmpty]. rewrite D, K, B. unfold scalarNode. destruct (readScalar (String c s)); [reflexivity|congruence].
  Qed.
  Lemma read_folded : forall n l post, l <> [] -> Forall Clean l -> Blank post ->
    readFolded n (rl (2 + n) (TFold l) ++ post) = Some (NStr (join " " l +++ nl)%string).
  Proof.
    intros n l post N C B. unfold readFolded, rl. cbn [render].
    assert (T : takeText (map lineOf (map (fun s => Some (2 + n, s)) l) ++ post) = map (fun s => (2 + n, s)) l).
    { clear N. induction C as [|s l Cs C IH].
      - destruct post as [|p post]; [reflexivity|]. cbn in B. apply andb_prop in B. cbn. destruct B as [-> _]. reflexivity.
      - cbn [map app takeText lineOf]. unfold blankLine at 1. cbn [snd]. destruct s; [destruct Cs; congruence|]. cbn [isEmpty]. rewrite IH. reflexivity. }
    rewrite T, map_length. cbv zeta.
    assert (S : skipn (List.length l) (map lineOf (map (fun s => Some (2 + n, s)) l) ++ post) = post).
    { rewrite skipn_app, !map_length, Nat.sub_diag, skipn_all2 by (rewrite !map_length; lia). reflexivity. }
    rewrite S, B. destruct l as [|s l]; [congruence|]. cbn [map]. rewrite (proj2 (Nat.ltb_lt n (2 + n))) by lia. cbn [andb].
    assert (Q : forallb (fun x => Nat.eqb (fst x) (2 + n)) ((2 + n, s) :: map (fun s => (2 + n, s)) l) = true).
    { apply forallb_forall. intros x [<-|H]; [apply Nat.eqb_refl|]. apply in_map_iff in H. destruct H as (y & <- & _). apply Nat.eqb_refl. }
    rewrite Q. do 3 f_equal. cbn [map snd]. rewrite map_map. cbn [snd]. rewrite map_id. reflexivity.
  Qed.

  Theorem read_tree : forall t, WF t -> match t with TFold _ => False | _ => True end ->
    forall f n post, height t <= f -> Blank post -> readBlock f (rl n t ++ post) = Some (nodeOf t).
  Proof.
    apply (tree_induction (fun t => WF t -> match t with TFold _ => False | _ => True end ->
      forall f n post, height t <= f -> Blank post -> readBlock f (rl n t ++ post) = Some (nodeOf t))).
    - intros s W _ [|f] n post H B; [cbn in H; lia|]. apply read_scalar_block; assumption.
    - intros b s W _ [|f] n post H B; [cbn in H; lia|]. apply read_scalar_block; [apply W|assumption].
    - intros l _ [].
    - intros l IH W _ [|f] n post H B; [cbn in H; lia|]. rewrite nodeOf_seq. destruct (group_seq n l post W B) as [Gb Gs].
      pose proof (group_drop (startsItem n) (fun x Hx => proj1 (blank_starts n x Hx)) _ Gb) as G.
      set (gs := snd (group (startsItem n) (rl n (TSeq l) ++ post))) in *. clearbody gs.
      cbn [YamlSpec.readBlock]. destruct (dropBlank (rl n (TSeq l) ++ post)) as [|[m s] rest] eqn:D.
      + cbn [group] in G. injection G as <-. inversion Gs. reflexivity.
      + assert (St : startsItem n (m, s) = true).
        { cbn [group] in G. destruct (group (startsItem n) rest). destruct (startsItem n (m, s)); [reflexivity|discriminate]. }
        unfold startsItem in St. cbn [fst snd] in St. apply andb_prop in St. destruct St as [Sm Sd]. apply Nat.eqb_eq in Sm. subst m.
        rewrite Sd. match goal with |- context [group ?a ?b] => replace (group a b) with (@nil line, gs) by (symmetry; exact G) end.
        assert (A : allIn (inItem n) gs = true).
        { unfold allIn. apply forallb_forall. intros g Hg. destruct (Forall2_in_r _ _ _ _ Gs Hg) as (t & _ & s' & r & b & k & -> & Hb & _ & Hr & _).
          apply inside_item; assumption. }
        rewrite A. erewrite (traverse_map _ nodeOf (live l)).
        * destruct (live l); [|reflexivity]. inversion Gs; subst. cbn [group] in G. exfalso.
          destruct (group (startsItem n) rest). destruct (startsItem n (n, s)); discriminate.
        * eapply Forall2_impl_in; [|exact Gs]. intros t g Ht (s' & r & b & k & -> & Hb & Cs & Hr & Ek). cbn [fst snd]. cbn [String.append sdrop].
          rewrite leading_clean by exact Cs.
          assert (It : In t (entriesOf l)) by (unfold live in Ht; apply filter_In in Ht; tauto).
          destruct (proj1 (Forall_forall _ _) (proj1 (WF_seq l) W) t It) as [Wt Ft].
          rewrite <- (proj1 (Forall_forall _ _) IH t It Wt Ft f (2 + n) b); [|pose proof (height_seq l t Ht); lia|exact Hb].
          apply readBlock_same. unfold rl. rewrite Ek, map_app, <- app_assoc, dropBlank_app by apply blanks_blank. reflexivity.
    - intros l IH W _ [|f] n post H B; [cbn in H; lia|]. rewrite nodeOf_map. destruct (group_map n l post W B) as [Gb Gs].
      pose proof (group_drop (startsEntry n) (fun x Hx => proj2 (blank_starts n x Hx)) _ Gb) as G.
      set (gs := snd (group (startsEntry n) (rl n (TMap l) ++ post))) in *. clearbody gs.
      cbn [YamlSpec.readBlock]. destruct (dropBlank (rl n (TMap l) ++ post)) as [|[m s] rest] eqn:D.
      + cbn [group] in G. injection G as <-. inversion Gs. reflexivity.
      + assert (St : startsEntry n (m, s) = true).
        { cbn [group] in G. destruct (group (startsEntry n) rest). destruct (startsEntry n (m, s)); [reflexivity|discriminate]. }
        pose proof St as St'. unfold startsEntry in St'. cbn [fst snd] in St'. apply andb_prop in St'. destruct St' as [St' Sd]. apply andb_prop in St'. destruct St' as [Sm _].
        apply Nat.eqb_eq in Sm. subst m. apply negb_true_iff in Sd. rewrite Sd.
        assert (Hk : forall kt g, In kt (entriesOf l) -> EntryGroup n kt g -> readKey (snd (fst g)) = Some (scalarNode (fst kt), entryHead (snd kt))).
        { intros kt g Hi (b & -> & _). cbn [fst snd]. destruct (proj1 (Forall_forall _ _) (proj1 (WF_map l) W) kt Hi) as [(_ & _ & K) _]. apply K. }
        assert (K0 : exists kn v, readKey s = Some (kn, v)).
        { cbn [group] in G. destruct (group (startsEntry n) rest) as [bf gs']. rewrite St in G. injection G as <-.
          destruct (entriesOf l) as [|kt es] eqn:El; inversion Gs; subst. specialize (Hk kt _ (or_introl eq_refl) H3). cbn [fst snd] in Hk. eauto. }
        destruct K0 as (kn & v & K0). rewrite K0. match goal with |- context [group ?a ?b] => replace (group a b) with (@nil line, gs) by (symmetry; exact G) end.
        assert (A : allIn (inEntry n) gs = true).
        { unfold allIn. apply forallb_forall. intros g Hg. destruct (Forall2_in_r _ _ _ _ Gs Hg) as (kt & Hi & b & -> & Hb).
          apply deeper_entry; [|exact Hb]. destruct (proj1 (Forall_forall _ _) (proj1 (WF_map l) W) kt Hi) as [_ Wt].
          apply (render_inside (snd kt) Wt n). }
        rewrite A. erewrite (traverse_map _ (fun kt => (scalarNode (fst kt), nodeOf (snd kt))) (entriesOf l)).
        * destruct (entriesOf l) eqn:El; [|reflexivity]. inversion Gs; subst. cbn [group] in G. exfalso.
          destruct (group (startsEntry n) rest). rewrite St in G. discriminate.
        * eapply Forall2_impl_in; [|exact Gs]. intros [k t] g Hi E. rewrite (Hk _ _ Hi E). destruct E as (b & -> & Hb). cbn [fst snd] in *.
          destruct (proj1 (Forall_forall _ _) (proj1 (WF_map l) W) _ Hi) as [Kt Wt]. cbn [fst snd] in *. pose proof (height_map l k t Hi) as Ht.
          pose proof (proj1 (Forall_forall _ _) IH _ Hi Wt) as Rt. cbn [snd] in Rt.
          destruct t as [s1|b1 s1|l1|l1|l1]; cbn [entryHead entryRest map app isEmpty].
          -- destruct Wt as (C1 & N1 & _ & _ & R1). destruct s1 as [|c s1]; [destruct C1; congruence|]. cbn [isEmpty].
             destruct (String.eqb_spec (String c s1) ">"); [congruence|]. rewrite Hb. cbn [nodeOf]. unfold scalarNode at 3.
             destruct (readScalar (String c s1)); [reflexivity|congruence].
          -- cbn [lineOf]. destruct f as [|f]; [cbn in Ht, H; lia|]. rewrite read_scalar_block by (try apply Wt; assumption). reflexivity.
          -- cbn [String.eqb Ascii.eqb Bool.eqb]. change (map lineOf (render (2 + n) (TFold l1)) ++ b) with (rl (2 + n) (TFold l1) ++ b).
             rewrite read_folded by (try apply Wt; assumption). reflexivity.
          -- change (map lineOf (render n (TSeq l1)) ++ b) with (rl n (TSeq l1) ++ b). rewrite Rt by (try exact I; try assumption; lia). reflexivity.
          -- change (map lineOf (render (2 + n) (TMap l1)) ++ b) with (rl (2 + n) (TMap l1) ++ b). rewrite Rt by (try exact I; try assumption; lia). reflexivity.
  Qed.
End Yaml.
