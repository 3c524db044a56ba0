(** * PrettyLayout.v: the tree each printing function of the formatter lays out. *)
From Coq Require Import Lia Floats.SpecFloat.
From Verif Require Import Model.Go Model.Types Model.Encode Model.Quote Model.Pretty.
From Verif Require Import Proofs.GoFacts Proofs.PrettyTree.
From Verif Require Model.Legacy.

Opaque render text.

Definition optApp {A} (a b : option (list A)) : option (list A) :=
  match a, b with Some x, Some y => Some (x ++ y) | _, _ => None end.
Infix "+?" := optApp (at level 62, right associativity).
Fixpoint optConcat {A} (l : list (option (list A))) : option (list A) :=
  match l with [] => Some [] | a :: l' => a +? optConcat l' end.

Definition entriesOf {A} (l : list (option A)) : list A := flat_map (fun o => match o with Some a => [a] | None => [] end) l.
Lemma entriesOf_app : forall {A} (a b : list (option A)), entriesOf (a ++ b) = entriesOf a ++ entriesOf b.
Proof. intros. apply flat_map_app. Qed.

(** What follows the colon of an entry. *)
Definition tailText (n : nat) (t : tree) : string :=
  match t with
  | TScalar s => (" " +++ s)%string
  | TBelow b s => (nl +++ pad (b + n) +++ s)%string
  | TFold _ => (" >" +++ text (render (2 + n) t))%string
  | TSeq _ => text (render n t)
  | TMap _ => text (render (2 + n) t)
  end.
Lemma entry_line : forall n k t, exists s r, entryLines n k t = Some (n, k +++ ":" +++ s)%string :: r /\ tailText n t = (s +++ text r)%string.
Proof.
  intros n k t. rewrite entryLines_eq. destruct t; cbn [tailText].
  - exists (" " +++ s)%string, []. split; [reflexivity|]. rewrite text_nil, sapp_nil_r. reflexivity.
  - exists "", [Some (by_ + n, s)]. split; [reflexivity|]. rewrite text_cons, text_nil, sapp_nil_r. reflexivity.
  - exists " >", (render (2 + n) (TFold l)). split; reflexivity.
  - exists "", (render n (TSeq l)). split; reflexivity.
  - exists "", (render (2 + n) (TMap l)). split; reflexivity.
Qed.
Lemma text_entry : forall n k t, text (render n (TMap [Some (k, t)])) = (nl +++ pad n +++ k +++ ":" +++ tailText n t)%string.
Proof.
  intros n k t. change (render n (TMap [Some (k, t)])) with (entryLines n k t).
  destruct (entry_line n k t) as (s & r & -> & ->). rewrite text_cons. cbn [rtext]. rewrite !sapp_assoc. reflexivity.
Qed.
Lemma text_entry_hung : forall m n k t, text (hang m (render n (TMap [Some (k, t)]))) = (nl +++ pad m +++ "- " +++ k +++ ":" +++ tailText n t)%string.
Proof.
  intros m n k t. change (render n (TMap [Some (k, t)])) with (entryLines n k t).
  destruct (entry_line n k t) as (s & r & -> & ->). cbn [hang]. rewrite text_cons. cbn [rtext]. rewrite !sapp_assoc. reflexivity.
Qed.
Lemma render_blank : forall n, render n (TMap [None]) = [None].
Proof. reflexivity. Qed.
Lemma render_none : forall n, render n (TMap []) = [].
Proof. reflexivity. Qed.
Lemma render_map_split : forall n o its, render n (TMap (o :: its)) = render n (TMap [o]) ++ render n (TMap its).
Proof. intros. apply (render_map_app n [o] its). Qed.
Lemma hang_app : forall m n a b, hang m (render n (TMap (a ++ b))) =
  match entriesOf a with [] => render n (TMap a) ++ hang m (render n (TMap b)) | _ => hang m (render n (TMap a)) ++ render n (TMap b) end.
Proof.
  intros m n a b. induction a as [|[[k t]|] a IH].
  - cbn [app entriesOf flat_map]. rewrite render_none. reflexivity.
  - cbn [entriesOf flat_map app]. rewrite render_map_split, (render_map_split n _ a), render_map_app.
    change (render n (TMap [Some (k, t)])) with (entryLines n k t).
    destruct (entry_line n k t) as (s & r & -> & _). cbn [hang app]. rewrite app_assoc. reflexivity.
  - change (entriesOf (None :: a)) with (entriesOf a). rewrite <- app_comm_cons, render_map_split, render_blank, (render_map_split n _ a), render_blank.
    cbn [app hang]. rewrite IH. destruct (entriesOf a); reflexivity.
Qed.

Lemma hang_blank : forall m n a, entriesOf a = [] -> hang m (render n (TMap a)) = render n (TMap a).
Proof.
  intros m n a E. rewrite <- (app_nil_r a) at 1. rewrite hang_app, E, render_none. cbn [hang]. apply app_nil_r.
Qed.

Definition place (d : nat) (ix : list (nat * bool)) (its : list item) : list (option (nat * string)) :=
  match ix with
  | (0, _) :: _ => hang (2 * (d - 1)) (render (2 * d) (TMap its))
  | _ => render (2 * d) (TMap its)
  end.
Definition after (ix : list (nat * bool)) (n : nat) (ix' : list (nat * bool)) : Prop :=
  match ix with
  | [] => ix' = []
  | (i, b) :: r => exists i', ix' = (i', b) :: r /\ (i' = 0 <-> i = 0 /\ n = 0)
  end.
Definition Ready (d : nat) (z : bool) (ix : list (nat * bool)) : Prop := flag z ix = false /\ (ix <> [] -> 1 <= d).
Definition NotFirst (ix : list (nat * bool)) : Prop := match ix with (0, _) :: _ => False | _ => True end.

Definition Acts (f : writing) (o : option (list item)) : Prop := forall out d z ix, Ready d z ix ->
  match o with
  | Some its => exists ix', f (mk out d z ix) = Ok (mk (out +++ text (place d ix its)) d z ix') /\ after ix (List.length (entriesOf its)) ix'
  | None => f (mk out d z ix) = Panic
  end.
Definition Follows (f : writing) (o : option tree) : Prop := forall out d z ix, Ready d z ix -> NotFirst ix ->
  match o with
  | Some t => exists ix', f (mk out d z ix) = Ok (mk (out +++ tailText (2 * d) t) d z ix') /\ after ix 1 ix'
  | None => f (mk out d z ix) = Panic
  end.
Definition Elems (f : writing) (o : option (list (option tree))) : Prop := forall out d z ix,
  f (mk out d z ix) = match o with
                      | Some ts => Ok (mk (out +++ text (render (2 * d) (TSeq ts))) d z ix)
                      | None => Panic
                      end.

Lemma after_ready : forall d z ix n ix', Ready d z ix -> after ix n ix' -> Ready d z ix'.
Proof.
  intros d z [|[i b] r] n ix' [F D] A; cbn in A; [subst; split; assumption|]. destruct A as (i' & -> & _). split; [exact F|].
  intros _. apply D. discriminate.
Qed.
Lemma after_notFirst : forall ix n ix', NotFirst ix \/ n <> 0 -> after ix n ix' -> NotFirst ix'.
Proof.
  intros [|[i b] r] n ix' H A; cbn in A; [subst; exact I|]. destruct A as (i' & -> & E). destruct i' as [|i']; [|exact I].
  exfalso. destruct (proj1 E eq_refl) as [-> ->]. destruct H as [[]|H]; congruence.
Qed.
Lemma after_trans : forall ix n ix1 m ix2, after ix n ix1 -> after ix1 m ix2 -> after ix (n + m) ix2.
Proof.
  intros [|[i b] r] n ix1 m ix2 A B; cbn in A.
  - subst. exact B.
  - destruct A as (i1 & -> & E1). cbn in B. destruct B as (i2 & -> & E2). exists i2. split; [reflexivity|]. rewrite E2, E1. lia.
Qed.
Lemma after_more : forall ix n ix', NotFirst ix -> after ix n ix' -> forall m, after ix m ix'.
Proof.
  intros [|[[|i] b] r] n ix' N A m; cbn in *; [exact A|destruct N|]. destruct A as (i' & -> & E). exists i'. split; [reflexivity|]. lia.
Qed.
Lemma after_refl : forall ix, after ix 0 ix.
Proof. intros [|[i b] r]; cbn; [reflexivity|]. exists i. split; [reflexivity|]. lia. Qed.

Lemma acts_skip : Acts skip (Some []).
Proof.
  intros out d z ix R. exists ix. split; [|apply after_refl]. unfold skip. apply mk_eq. unfold place. rewrite render_none.
  destruct ix as [|[[|i] b] r]; cbn [hang]; rewrite text_nil, sapp_nil_r; reflexivity.
Qed.
Lemma acts_nl : Acts (emit nl) (Some [None]).
Proof.
  intros out d z ix R. exists ix. split; [|apply after_refl]. rewrite emit_mk. apply mk_eq. unfold place. rewrite render_blank.
  destruct ix as [|[[|i] b] r]; cbn [hang]; rewrite text_cons, text_nil, sapp_nil_r; reflexivity.
Qed.
Lemma acts_then : forall f g a b, Acts f a -> Acts g b -> Acts (f >> g) (a +? b).
Proof.
  intros f g a b A B out d z ix R. specialize (A out d z ix R). destruct a as [its1|]; [|apply then_panic, A].
  destruct A as (ix1 & E1 & A1). pose proof (after_ready _ _ _ _ _ R A1) as R1.
  specialize (B (out +++ text (place d ix its1))%string d z ix1 R1). destruct b as [its2|]; cbn [optApp].
  - destruct B as (ix2 & E2 & A2). exists ix2. split.
    + rewrite (then_ok _ _ _ _ E1), E2. apply mk_eq. rewrite sapp_assoc, <- text_app. do 2 f_equal.
      unfold place in *. destruct ix as [|[[|i] b] r]; cbn in A1.
      * subst. rewrite render_map_app. reflexivity.
      * destruct A1 as (i' & -> & Z). rewrite hang_app. destruct (entriesOf its1) as [|e l] eqn:En; cbn [List.length] in Z.
        -- assert (i' = 0) as -> by (apply Z; auto). rewrite hang_blank by exact En. reflexivity.
        -- destruct i' as [|i']; [exfalso; destruct (proj1 Z eq_refl); discriminate|]. reflexivity.
      * destruct A1 as (i' & -> & Z). destruct i' as [|i']; [exfalso; destruct (proj1 Z eq_refl); discriminate|].
        rewrite render_map_app. reflexivity.
    + rewrite entriesOf_app, app_length. eapply after_trans; eassumption.
  - rewrite (then_ok _ _ _ _ E1). exact B.
Qed.

Lemma acts_whenever : forall b f o, Acts f o -> Acts (whenever b f) (if b then o else Some []).
Proof. intros [] f o A; [exact A|apply acts_skip]. Qed.
Lemma acts_ifSet : forall {A} (p : option A) f g, (forall a, Acts (f a) (g a)) ->
  Acts (ifSet p f) (match p with Some a => g a | None => Some [] end).
Proof. intros A [a|] f g H; [apply H|apply acts_skip]. Qed.
Lemma acts_reading : forall {A} (p : option A) f g, (forall a, Acts (f a) (g a)) ->
  Acts (reading p f) (match p with Some a => g a | None => None end).
Proof.
  intros A [a|] f g H; [|intros out d z ix R; reflexivity]. intros out d z ix R. exact (H a out d z ix R).
Qed.
Lemma acts_each : forall {A} (f : A -> writing) g l, (forall a, Acts (f a) (g a)) -> Acts (each f l) (optConcat (map g l)).
Proof.
  intros A f g l H. induction l as [|a l IH]; [apply acts_skip|]. cbn [each map optConcat]. apply acts_then; [apply H|exact IH].
Qed.
Lemma elems_each : forall {A} (f : A -> writing) g l, (forall a, Elems (f a) (g a)) -> Elems (each f l) (optConcat (map g l)).
Proof.
  intros A f g l H. induction l as [|a l IH]; intros out d z ix.
  - cbn [each map optConcat]. unfold skip. apply mk_eq. Transparent render. cbn [render flat_map]. Opaque render. rewrite text_nil, sapp_nil_r. reflexivity.
  - cbn [each map optConcat]. pose proof (H a out d z ix) as E. destruct (g a) as [ts|]; [|apply then_panic; exact E].
    rewrite (then_ok _ _ _ _ E), IH. destruct (optConcat (map g l)) as [ts'|]; cbn [optApp]; [|reflexivity].
    apply mk_eq. rewrite render_seq_app, text_app, sapp_assoc. reflexivity.
Qed.
Lemma elems_element : forall f o, Acts f o -> Elems (element f) (option_map (fun its => [Some (TMap its)]) o).
Proof.
  intros f o A out d z ix. unfold element.
  rewrite (then_ok newIndexWriter _ (mk out d z ix) (mk out d z ((0, false) :: ix)) eq_refl), (then_ok _ _ _ _ (inc_mk _ _ _ _)).
  assert (R : Ready (S d) z ((0, false) :: ix)) by (split; [reflexivity|intros _; lia]).
  specialize (A out (S d) z _ R). destruct o as [its|]; [|apply then_panic; exact A]. destruct A as (ix' & E & (i' & -> & _)).
  rewrite (then_ok _ _ _ _ E), (then_ok _ _ _ _ (dec_mk _ _ _ _)). unfold dropIndexWriter, mk. cbn [w_out w_depth w_zero w_index tl option_map].
  repeat f_equal. unfold place. replace (S d - 1) with d by lia. replace (2 * S d) with (2 + 2 * d) by lia.
  Transparent render. cbn [render flat_map]. Opaque render. rewrite app_nil_r. reflexivity.
Qed.
Lemma elems_ifSet : forall {A} (p : option A) f g, (forall a, Elems (f a) (g a)) ->
  Elems (ifSet p f) (match p with Some a => g a | None => Some [] end).
Proof.
  intros A [a|] f g H; [apply H|]. intros out d z ix. unfold ifSet, skip. apply mk_eq.
  Transparent render. cbn [render flat_map]. Opaque render. rewrite text_nil, sapp_nil_r. reflexivity.
Qed.
Lemma elems_reading : forall {A} (p : option A) f g, (forall a, Elems (f a) (g a)) ->
  Elems (reading p f) (match p with Some a => g a | None => None end).
Proof. intros A [a|] f g H; [|intros out d z ix; reflexivity]. intros out d z ix. apply (H a). Qed.
Lemma elems_scalar : forall s, Elems (emit nl >> indent >> emit "-" >> emit " " >> emit s) (Some [Some (TScalar s)]).
Proof.
  intros s out d z ix. do 5 step. apply mk_eq. Transparent render. cbn [render flat_map app hang]. Opaque render.
  rewrite text_cons, text_nil, sapp_nil_r. cbn [rtext]. rewrite !sapp_assoc. reflexivity.
Qed.
Lemma follows_nested : forall f o, Acts f o -> Follows (nested f) (option_map TMap o).
Proof.
  intros f o A out d z ix R N. unfold nested. rewrite (then_ok _ _ _ _ (inc_mk _ _ _ _)).
  assert (R' : Ready (S d) z ix) by (destruct R; split; [assumption|intros _; lia]).
  specialize (A out (S d) z ix R'). destruct o as [its|]; [|apply then_panic; exact A]. destruct A as (ix' & E & A).
  exists ix'. split; [|exact (after_more _ _ _ N A 1)]. rewrite (then_ok _ _ _ _ E), dec_mk. apply mk_eq.
  cbn [tailText]. replace (2 + 2 * d) with (2 * S d) by lia. destruct ix as [|[[|i] b] r]; [reflexivity|destruct N|reflexivity].
Qed.
Lemma follows_nested2 : forall f g a b, Acts f a -> Acts g b -> Follows (nested f >> nested g) (option_map TMap (a +? b)).
Proof.
  intros f g a b A B out d z ix R N. pose proof (follows_nested f a A out d z ix R N) as F. destruct a as [its1|]; [|apply then_panic; exact F].
  destruct F as (ix1 & E1 & A1). pose proof (after_notFirst _ 1 _ (or_introl N) A1) as N1. pose proof (after_ready _ _ _ _ _ R A1) as R1.
  pose proof (follows_nested g b B (out +++ tailText (2 * d) (TMap its1)) d z ix1 R1 N1) as F. cbn [option_map] in E1.
  rewrite (then_ok _ _ _ _ E1). destruct b as [its2|]; [|exact F]. destruct F as (ix2 & E2 & A2). cbn [optApp option_map].
  exists ix2. split; [|exact (after_more _ _ _ N (after_trans _ _ _ _ _ A1 A2) 1)]. cbn [option_map] in E2. rewrite E2. apply mk_eq.
  cbn [tailText]. rewrite render_map_app, text_app, sapp_assoc. reflexivity.
Qed.
Lemma follows_elems : forall f o, Elems f o -> Follows f (option_map TSeq o).
Proof.
  intros f o A out d z ix R N. rewrite A. destruct o as [ts|]; [|reflexivity]. exists ix. split; [reflexivity|].
  exact (after_more _ _ _ N (after_refl ix) 1).
Qed.
Lemma follows_skip : Follows skip (Some (TMap [])).
Proof.
  intros out d z ix R N. exists ix. split; [|exact (after_more _ _ _ N (after_refl ix) 1)]. unfold skip. apply mk_eq. cbn [tailText].
  rewrite render_none, text_nil, sapp_nil_r. reflexivity.
Qed.

Lemma writes_scalar : forall s n, s = inline (render n (TScalar s)).
Proof. intros. Transparent render. cbn [render inline]. Opaque render. rewrite text_nil, sapp_nil_r. reflexivity. Qed.

Section Layout.
  Variable iph : N -> bool.
  Variable formatFloat sprintFloat : float64 -> string.
  Variable bytesSize : Z -> string.
  Notation enc := (encodeString iph).
  Notation writeDecoded := (Pretty.writeDecoded iph formatFloat sprintFloat).
  Notation writeValue := (Pretty.writeValue iph formatFloat sprintFloat bytesSize).
  Notation writeTagValue := (Pretty.writeTagValue iph formatFloat sprintFloat bytesSize).
  Notation writeTag := (Pretty.writeTag iph).
  Notation anyTree := (PrettyTree.anyTree iph formatFloat sprintFloat bytesSize).

  Lemma writeTag_mk : forall k out d z ix, (ix <> [] -> 1 <= d) -> exists ix',
    writeTag k (mk out d z ix) =
    Ok (mk (out +++ nl +++ match ix with (0, _) :: _ => pad (2 * (d - 1)) +++ "- " | _ => pad (2 * d) end +++ enc k +++ ":") d z ix')
    /\ after ix 1 ix'.
  Proof.
    intros k out d z ix D. unfold Pretty.writeTag, writeEncode. cbn [w_index mk]. destruct ix as [|[[|i] b] r].
    - exists []. split; [|reflexivity]. change {| w_out := out; w_depth := Z.of_nat d; w_zero := z; w_index := [] |} with (mk out d z []).
      do 4 step. apply mk_eq. rewrite !sapp_assoc. reflexivity.
    - destruct d as [|d]; [exfalso; assert (1 <= 0) by (apply D; discriminate); lia|].
      exists ((1, b) :: r). split; [|exists 1; split; [reflexivity|lia]].
      change {| w_out := out; w_depth := Z.of_nat (S d); w_zero := z; w_index := (0, b) :: r |} with (mk out (S d) z ((0, b) :: r)).
      cbn [Nat.eqb]. step. do 4 (rewrite then_assoc; step). do 3 step.
      cbn [w_out w_depth w_zero w_index mk]. apply mk_eq. rewrite !sapp_assoc. replace (S d - 1) with d by lia. reflexivity.
    - exists ((S (S i), b) :: r). split; [|exists (S (S i)); split; [reflexivity|lia]].
      change {| w_out := out; w_depth := Z.of_nat d; w_zero := z; w_index := (S i, b) :: r |} with (mk out d z ((S i, b) :: r)).
      cbn [Nat.eqb]. do 4 step. cbn [w_out w_depth w_zero w_index mk]. apply mk_eq. rewrite !sapp_assoc. reflexivity.
  Qed.
  Lemma place_entry : forall d ix k t, text (place d ix [Some (k, t)]) =
    (nl +++ match ix with (0, _) :: _ => pad (2 * (d - 1)) +++ "- " | _ => pad (2 * d) end +++ k +++ ":" +++ tailText (2 * d) t)%string.
  Proof.
    intros d ix k t. unfold place. destruct ix as [|[[|i] b] r]; [apply text_entry| |apply text_entry].
    rewrite text_entry_hung. rewrite !sapp_assoc. reflexivity.
  Qed.
  Lemma acts_tag : forall k f o, Follows f o -> Acts (writeTag k >> f) (option_map (fun t => [Some (enc k, t)]) o).
  Proof.
    intros k f o F out d z ix R. destruct (writeTag_mk k out d z ix (proj2 R)) as (ix1 & E & A).
    pose proof (after_ready _ _ _ _ _ R A) as R1. pose proof (after_notFirst _ 1 _ (or_intror (Nat.neq_succ_0 0)) A) as N1.
    rewrite (then_ok _ _ _ _ E). match goal with |- context [mk ?o d z ix1] => specialize (F o d z ix1 R1 N1) end.
    destruct o as [t|]; [|exact F]. destruct F as (ix2 & E2 & A2). cbn [option_map]. exists ix2. split.
    - rewrite E2. apply mk_eq. rewrite place_entry. rewrite !sapp_assoc. reflexivity.
    - pose proof (after_trans _ _ _ _ _ A A2) as T. cbn [entriesOf flat_map app List.length].
      destruct ix as [|[i b] r]; cbn in *; [exact T|]. destruct T as (i' & -> & X). exists i'. split; [reflexivity|]. lia.
  Qed.

  (** ** Values below a key *)
  Notation stringTree := (PrettyTree.stringTree iph).
  Notation stringsTree := (PrettyTree.stringsTree iph).
  Notation stringMapTree := (PrettyTree.stringMapTree iph).
  Lemma writes_strings : forall x l, Writes (writeSequenceStr iph (x :: l)) (stringsTree (x :: l)).
  Proof.
    intros x l out d z ix. unfold writeSequenceStr. cbn [emptyList stringItems negb whenever].
    assert (R : forall l out, stringItems iph false l (mk out d z ix) = Ok (mk (out +++ text (render (2 * d) (stringsTree l))) d z ix)).
    { clear. induction l as [|x l IH]; intro out.
      - cbn [stringItems]. unfold skip. apply mk_eq. symmetry. apply sapp_nil_r.
      - cbn [stringItems negb whenever]. rewrite then_assoc. do 3 step. unfold writeEncode. step. rewrite IH. apply mk_eq.
        unfold PrettyTree.stringsTree. cbn [map]. rewrite (render_seq_cons _ _ (map _ l)), text_app, item_text by apply headed_scalar.
        unfold PrettyTree.stringTree. rewrite <- (writes_scalar (enc x)). rewrite !sapp_assoc. reflexivity. }
    do 2 step. unfold writeEncode. step. rewrite R. apply mk_eq. unfold PrettyTree.stringsTree. cbn [map].
    rewrite item_inline by apply headed_scalar. unfold PrettyTree.stringTree at 2. rewrite <- (writes_scalar (enc x)). rewrite !sapp_assoc. reflexivity.
  Qed.
  Lemma writes_stringMap : forall x m, Writes (writeMappingStr iph (x :: m)) (stringMapTree (x :: m)).
  Proof.
    intros x m out d z ix. unfold writeMappingStr. cbn [emptyList]. unfold PrettyTree.stringMapTree. cbn [mkeys map].
    destruct (sort_cons (fst x) (map fst m)) as (k & ks & E). unfold mkeys. cbn [map]. rewrite E. set (M := x :: m). clearbody M. clear E x m.
    assert (R : forall ks out, stringEntries iph false ks M (mk out d z ix) =
      Ok (mk (out +++ text (render (2 * d) (TMap (map (fun k => Some (enc k, stringTree (match mget k M with Some v => v | None => "" end))) ks)))) d z ix)).
    { clear. induction ks as [|k ks IH]; intro out.
      - cbn [stringEntries map]. unfold skip. apply mk_eq. symmetry. apply sapp_nil_r.
      - cbn [stringEntries map negb whenever]. cbv zeta. rewrite then_assoc. do 2 step. unfold writeEncode. do 4 step. rewrite IH. apply mk_eq.
        rewrite render_map_cons, text_app, entry_text. unfold PrettyTree.stringTree at 2. rewrite entry_scalar. rewrite !sapp_assoc. reflexivity. }
    cbn [stringEntries map negb whenever]. cbv zeta. step. unfold writeEncode. do 4 step. rewrite R. apply mk_eq.
    rewrite render_map_cons, entry_inline_app. unfold PrettyTree.stringTree at 2. rewrite entry_scalar. rewrite !sapp_assoc. reflexivity.
  Qed.

  Definition inTag (v : any) : writing :=
    if isPrimative v then emit " " >> writeValue v
    else if isSlice v then emit nl >> indent >> writeValue v
    else indentIncrease >> emit nl >> indent >> writeValue v >> indentDecrease.
  Lemma value_mk : forall v out d z ix, inTag v (mk out d z ix) = Ok (mk (out +++ tailText (2 * d) (anyTree v)) d z ix).
  Proof.
    intros v out d z ix.
    assert (P : forall s, isPrimative v = true -> writeValue v = emit s -> anyTree v = TScalar s ->
              inTag v (mk out d z ix) = Ok (mk (out +++ tailText (2 * d) (anyTree v)) d z ix)).
    { intros s E1 E2 ->. unfold inTag. rewrite E1, E2. do 2 step. apply mk_eq. cbn [tailText]. rewrite !sapp_assoc. reflexivity. }
    assert (B : forall s, isPrimative v = false -> isSlice v = false -> writeValue v = emit s -> anyTree v = TBelow 2 s ->
              inTag v (mk out d z ix) = Ok (mk (out +++ tailText (2 * d) (anyTree v)) d z ix)).
    { intros s E1 E2 E3 ->. unfold inTag. rewrite E1, E2, E3. do 5 step. apply mk_eq. cbn [tailText]. rewrite !sapp_assoc.
      replace (2 * S d) with (2 + 2 * d) by lia. reflexivity. }
    assert (S0 : forall s, isPrimative v = false -> isSlice v = true -> writeValue v = emit s -> anyTree v = TBelow 0 s ->
              inTag v (mk out d z ix) = Ok (mk (out +++ tailText (2 * d) (anyTree v)) d z ix)).
    { intros s E1 E2 E3 ->. unfold inTag. rewrite E1, E2, E3. do 3 step. apply mk_eq. cbn [tailText]. rewrite !sapp_assoc. reflexivity. }
    assert (S1 : forall l, isPrimative v = false -> isSlice v = true -> anyTree v = TSeq l -> Headed (TSeq l) -> Writes (writeValue v) (TSeq l) ->
              inTag v (mk out d z ix) = Ok (mk (out +++ tailText (2 * d) (anyTree v)) d z ix)).
    { intros l E1 E2 -> H W. unfold inTag. rewrite E1, E2. do 2 step. rewrite W. apply mk_eq. cbn [tailText].
      rewrite (inline_text (2 * d) (TSeq l) H). rewrite !sapp_assoc. reflexivity. }
    assert (M1 : forall l, isPrimative v = false -> isSlice v = false -> anyTree v = TMap l -> Headed (TMap l) -> Writes (writeValue v) (TMap l) ->
              inTag v (mk out d z ix) = Ok (mk (out +++ tailText (2 * d) (anyTree v)) d z ix)).
    { intros l E1 E2 -> H W. unfold inTag. rewrite E1, E2. do 3 step. rewrite (then_ok _ _ _ _ (W _ _ _ _)). step. apply mk_eq. cbn [tailText].
      replace (2 * S d) with (2 + 2 * d) by lia. rewrite (inline_text (2 + 2 * d) (TMap l) H). rewrite !sapp_assoc. reflexivity. }
    destruct v as [[|b|i|f|s|[|x l]|[|x m]]|[|x l]|[|x m]|size].
    - apply (B "~"); reflexivity.
    - apply (P (formatBool b)); reflexivity.
    - destruct (isInt i) eqn:Hi.
      + apply (P (itoa i)); cbn [isPrimative Pretty.writeValue Pretty.writeDecoded PrettyTree.anyTree below]; rewrite Hi; reflexivity.
      + unfold inTag. cbn [isPrimative isSlice Pretty.writeValue Pretty.writeDecoded PrettyTree.anyTree below]. rewrite Hi. do 5 step. apply mk_eq.
        cbn [tailText]. rewrite sapp_nil_r, !sapp_assoc. replace (2 * S d) with (2 + 2 * d) by lia. reflexivity.
    - apply (P (formatFloat f)); reflexivity.
    - apply (P (enc s)); reflexivity.
    - apply (S0 "[]"); reflexivity.
    - pose proof (valueTree_headed iph formatFloat sprintFloat (VList (x :: l))) as H. pose proof (writes_decoded iph formatFloat sprintFloat (VList (x :: l))) as W.
      assert (exists l', valueTree iph formatFloat sprintFloat (VList (x :: l)) = TSeq l') as [l' E] by (eexists; reflexivity). rewrite E in H, W.
      apply (S1 l'); [reflexivity|reflexivity|exact E|exact H|exact W].
    - apply (B "{}"); reflexivity.
    - pose proof (valueTree_headed iph formatFloat sprintFloat (VMap (x :: m))) as H. pose proof (writes_decoded iph formatFloat sprintFloat (VMap (x :: m))) as W.
      assert (exists l', valueTree iph formatFloat sprintFloat (VMap (x :: m)) = TMap l') as [l' E] by (eexists; reflexivity). rewrite E in H, W.
      apply (M1 l'); [reflexivity|reflexivity|exact E|exact H|exact W].
    - apply (S0 "[]"); reflexivity.
    - eapply S1; [reflexivity|reflexivity|reflexivity| |apply writes_strings]. cbn [map]. apply headed_seq, headed_scalar.
    - apply (B "{}"); reflexivity.
    - eapply M1; [reflexivity|reflexivity|reflexivity| |apply writes_stringMap]. cbn [mkeys map].
      destruct (sort_cons (fst x) (map fst m)) as (k & ks & E). unfold mkeys. cbn [map]. rewrite E. cbn [map]. apply headed_map.
    - apply (P (enc (bytesSize size))); reflexivity.
  Qed.
  Lemma follows_value : forall v, Follows (inTag v) (Some (anyTree v)).
  Proof.
    intros v out d z ix R N. exists ix. split; [apply value_mk|exact (after_more _ _ _ N (after_refl ix) 1)].
  Qed.
  Definition tagItems (k : string) (v : any) : option (list item) :=
    Some (if isZero v then [] else [Some (enc k, anyTree v)]).
  Lemma acts_tagValue : forall k v, Acts (writeTagValue k v) (tagItems k v).
  Proof.
    intros k v. unfold tagItems. destruct (isZero v) eqn:E.
    - intros out d z ix R. destruct (acts_skip out d z ix R) as (ix' & E' & A). exists ix'. split; [|exact A].
      unfold Pretty.writeTagValue. rewrite E. replace (keepsZero (mk out d z ix)) with false; [exact E'|].
      symmetry. exact (proj1 R).
    - intros out d z ix R. pose proof (acts_tag k _ _ (follows_value v) out d z ix R) as A. cbn [option_map] in A.
      unfold Pretty.writeTagValue. rewrite E. exact A.
  Qed.
  (** With IncludeZero. *)
  Lemma acts_zeroValue : forall k v, Acts (includeZero >> writeTagValue k v >> excludeZero) (Some [Some (enc k, anyTree v)]).
  Proof.
    intros k v out d z ix R.
    assert (Z : exists z' ix', includeZero (mk out d z ix) = Ok (mk out d z' ix') /\ flag z' ix' = true
                /\ (ix' <> [] -> 1 <= d) /\ (forall its, place d ix' its = place d ix its)
                /\ forall ix'' out', after ix' 1 ix'' -> exists ix3, excludeZero (mk out' d z' ix'') = Ok (mk out' d z ix3) /\ after ix 1 ix3).
    { destruct R as [F D]. destruct ix as [|[i b] r]; cbn in F; subst.
      - exists true, []. split; [reflexivity|]. split; [reflexivity|]. split; [congruence|]. split; [reflexivity|].
        intros ix'' out' A. cbn in A. subst. exists []. split; reflexivity.
      - exists z, ((i, true) :: r). split; [reflexivity|]. split; [reflexivity|]. split; [intros _; apply D; discriminate|]. split; [reflexivity|].
        intros ix'' out' (i' & -> & X). exists ((i', false) :: r). split; [reflexivity|]. exists i'. split; [reflexivity|exact X]. }
    destruct Z as (z' & ix' & E & F & D & P & X). rewrite (then_ok _ _ _ _ E).
    destruct (writeTag_mk k out d z' ix' D) as (ix1 & E1 & A1).
    match type of E1 with _ = Ok (mk ?o _ _ _) => destruct (X ix1 (o +++ tailText (2 * d) (anyTree v))%string A1) as (ix3 & E3 & A3); exists ix3; split; [|exact A3] end.
    erewrite then_ok; [rewrite E3; apply mk_eq|].
    - rewrite <- P, place_entry. rewrite !sapp_assoc. reflexivity.
    - unfold Pretty.writeTagValue. change (keepsZero (mk out d z' ix')) with (flag z' ix'). rewrite F, andb_false_r.
      rewrite (then_ok _ _ _ _ E1). apply value_mk.
  Qed.
End Layout.
