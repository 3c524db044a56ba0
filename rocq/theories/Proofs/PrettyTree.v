(** * PrettyTree.v: what the formatter writes is the layout of a tree. *)
From Coq Require Import Lia Floats.SpecFloat.
From Verif Require Import Model.Go Model.Types Model.Encode Model.Quote Model.Pretty.
From Verif Require Import Proofs.GoFacts.
From Verif Require Export Spec.TreeSpec.
From Verif Require Model.Legacy.

Definition entryLines (n : nat) (k : string) (t : tree) : list rline := render n (TMap [Some (k, t)]).

Definition inline (ls : list rline) : string :=
  match ls with Some (_, s) :: r => (s +++ text r)%string | _ => "" end.

Lemma text_app : forall a b, text (a ++ b) = (text a +++ text b)%string.
Proof. intros. unfold text. rewrite map_app, concats_app. reflexivity. Qed.
Lemma text_cons : forall l a, text (l :: a) = (rtext l +++ text a)%string.
Proof. reflexivity. Qed.
Lemma text_nil : text [] = "".
Proof. reflexivity. Qed.
Lemma pad_spaces : forall d, spaces d = pad (2 * d).
Proof. induction d as [|d IH]; [reflexivity|]. replace (2 * S d) with (S (S (2 * d))) by lia. cbn [spaces pad]. rewrite IH. reflexivity. Qed.
Lemma render_map_app : forall n a b, render n (TMap (a ++ b)) = render n (TMap a) ++ render n (TMap b).
Proof. intros. cbn [render]. apply flat_map_app. Qed.
Lemma render_seq_app : forall n a b, render n (TSeq (a ++ b)) = render n (TSeq a) ++ render n (TSeq b).
Proof. intros. cbn [render]. apply flat_map_app. Qed.
Lemma render_seq_cons : forall n o l, render n (TSeq (o :: l)) = render n (TSeq [o]) ++ render n (TSeq l).
Proof. intros. apply (render_seq_app n [o] l). Qed.
Lemma render_map_cons : forall n k t its, render n (TMap (Some (k, t) :: its)) = entryLines n k t ++ render n (TMap its).
Proof. intros. apply (render_map_app n [Some (k, t)] its). Qed.
Lemma entryLines_eq : forall n k t, entryLines n k t =
  match t with
  | TScalar s => [Some (n, k +++ ": " +++ s)%string]
  | TBelow b s => [Some (n, k +++ ":")%string; Some (b + n, s)]
  | TFold _ => Some (n, k +++ ": >")%string :: render (2 + n) t
  | TSeq _ => Some (n, k +++ ":")%string :: render n t
  | TMap _ => Some (n, k +++ ":")%string :: render (2 + n) t
  end.
Proof. intros. unfold entryLines. cbn [render flat_map]. rewrite app_nil_r. reflexivity. Qed.
Opaque render text.

(** ** States *)
Definition mk (out : string) (d : nat) (z : bool) (ix : list (nat * bool)) : writer :=
  {| w_out := out; w_depth := Z.of_nat d; w_zero := z; w_index := ix |}.
Definition flag (z : bool) (ix : list (nat * bool)) : bool := match ix with [] => z | (_, b) :: _ => b end.
Lemma emit_mk : forall s out d z ix, emit s (mk out d z ix) = Ok (mk (out +++ s) d z ix).
Proof. reflexivity. Qed.
Lemma indent_mk : forall out d z ix, indent (mk out d z ix) = Ok (mk (out +++ pad (2 * d)) d z ix).
Proof. intros. unfold indent, mk, emit. cbn [w_depth w_out w_zero w_index]. rewrite Nat2Z.id, pad_spaces. reflexivity. Qed.
Lemma inc_mk : forall out d z ix, indentIncrease (mk out d z ix) = Ok (mk out (S d) z ix).
Proof. intros. unfold indentIncrease, shift, mk. cbn [w_depth w_out w_zero w_index]. repeat f_equal. lia. Qed.
Lemma dec_mk : forall out d z ix, indentDecrease (mk out (S d) z ix) = Ok (mk out d z ix).
Proof. intros. unfold indentDecrease, shift, mk. cbn [w_depth w_out w_zero w_index]. repeat f_equal. lia. Qed.
Lemma then_ok : forall (f g : writing) w w', f w = Ok w' -> (f >> g) w = g w'.
Proof. intros f g w w' E. unfold andThen. rewrite E. reflexivity. Qed.
Lemma then_panic : forall (f g : writing) w, f w = Panic -> (f >> g) w = Panic.
Proof. intros f g w E. unfold andThen. rewrite E. reflexivity. Qed.
Ltac step := first
  [ rewrite (then_ok _ _ _ _ (emit_mk _ _ _ _ _))
  | rewrite (then_ok _ _ _ _ (indent_mk _ _ _ _))
  | rewrite (then_ok _ _ _ _ (inc_mk _ _ _ _))
  | rewrite (then_ok _ _ _ _ (dec_mk _ _ _ _))
  | rewrite (then_ok skip _ _ _ eq_refl)
  | rewrite emit_mk | rewrite indent_mk | rewrite inc_mk | rewrite dec_mk ].
Lemma then_assoc : forall (f g h : writing) w, ((f >> g) >> h) w = (f >> (g >> h)) w.
Proof. intros. unfold andThen. destruct (f w); reflexivity. Qed.
Lemma mk_eq : forall out out' d z ix, out = out' -> @Ok writer (mk out d z ix) = Ok (mk out' d z ix).
Proof. intros; subst; reflexivity. Qed.

Section Tree.
  Variable iph : N -> bool.
  Variable formatFloat sprintFloat : float64 -> string.
  Variable bytesSize : Z -> string.
  Notation enc := (encodeString iph).
  Notation writeDecoded := (Pretty.writeDecoded iph formatFloat sprintFloat).
  Notation writeEntries := (Pretty.writeEntries iph).
  Notation writeValue := (Pretty.writeValue iph formatFloat sprintFloat bytesSize).
  Notation writeTagValue := (Pretty.writeTagValue iph formatFloat sprintFloat bytesSize).
  Notation writeTag := (Pretty.writeTag iph).

  (** ** Values *)
  Definition scalarOf (v : value) : string :=
    match v with
    | VNull => "~" | VBool b => formatBool b | VInt z => if isInt z then itoa z else ""
    | VFloat f => formatFloat f | VStr s => enc s | VList _ => "[]" | VMap _ => "{}"
    end.
  Definition underKey (v : value) (t : tree) : tree :=
    match v with VInt z => if isInt z then t else TBelow 2 "" | _ => t end.
  Fixpoint valueTree (v : value) : tree :=
    match v with
    | VList ((_ :: _) as l) => TSeq (map (fun x => Some (valueTree x)) l)
    | VMap ((_ :: _) as m) =>
        let entries := map (fun kv => (fst kv, (snd kv, valueTree (snd kv)))) m in
        TMap (map (fun k => Some (enc k, match lookup k entries with Some (v, t) => underKey v t | None => TScalar "~" end))
                (Legacy.sortStrings (map (fun kv => sprint sprintFloat (fst kv)) m)))
    | _ => TScalar (scalarOf v)
    end.
  Definition below (v : value) : tree :=
    match v with
    | VNull | VMap [] => TBelow 2 (scalarOf v)
    | VList [] => TBelow 0 "[]"
    | VInt z => if isInt z then TScalar (itoa z) else TBelow 2 ""
    | _ => valueTree v
    end.
  Definition stringTree (s : string) : tree := TScalar (enc s).
  Definition stringsTree (l : list string) : tree := TSeq (map (fun s => Some (stringTree s)) l).
  Definition stringMapTree (m : smap string) : tree :=
    TMap (map (fun k => Some (enc k, stringTree (match mget k m with Some v => v | None => "" end))) (Legacy.sortStrings (mkeys m))).
  Definition anyTree (v : any) : tree :=
    match v with
    | AValue v => below v
    | AStrings [] => TBelow 0 "[]"
    | AStrings l => stringsTree l
    | AMap [] => TBelow 2 "{}"
    | AMap m => stringMapTree m
    | ASize z => stringTree (bytesSize z)
    end.

  Definition Writes (f : writing) (t : tree) : Prop := forall out d z ix,
    f (mk out d z ix) = Ok (mk (out +++ inline (render (2 * d) t)) d z ix).
  (** The first line of a value is not empty. *)
  Definition Headed (t : tree) : Prop := forall n, exists s r, render n t = Some (n, s) :: r.

  Lemma value_induction : forall P : value -> Prop,
    (forall v, match v with VList (_ :: _) | VMap (_ :: _) => False | _ => True end -> P v) ->
    (forall l, l <> [] -> Forall P l -> P (VList l)) ->
    (forall m, m <> [] -> Forall (fun kv => P (snd kv)) m -> P (VMap m)) -> forall v, P v.
  Proof.
    intros P H1 H2 H3. fix IH 1. intros [| | | | |[|x l]|[|x m]]; try (apply H1; exact I).
    - apply H2; [discriminate|]. constructor; [apply IH|]. induction l as [|y l IHl]; constructor; [apply IH|exact IHl].
    - apply H3; [discriminate|]. constructor; [destruct x as [k v]; apply IH|].
      induction m as [|[k v] m IHm]; constructor; [apply IH|exact IHm].
  Qed.

  Lemma headed_scalar : forall s, Headed (TScalar s).
  Proof. intros s n. exists s, []. reflexivity. Qed.
  Lemma headed_below : forall b s, Headed (TBelow b s).
  Proof. intros b s n. exists s, []. reflexivity. Qed.
  Lemma headed_map : forall k t its, Headed (TMap (Some (k, t) :: its)).
  Proof. intros k t its n. rewrite render_map_cons, entryLines_eq. destruct t; eexists _, _; reflexivity. Qed.
  Lemma headed_seq : forall t l, Headed t -> Headed (TSeq (Some t :: l)).
  Proof.
    intros t l H n. destruct (H (2 + n)) as (s & r & E).
    rewrite render_seq_cons. Transparent render. cbn [render flat_map]. Opaque render.
    change (S (S n)) with (2 + n). rewrite E. cbn [hang]. eexists _, _. reflexivity.
  Qed.
  Lemma sort_length : forall l, List.length (Legacy.sortStrings l) = List.length l.
  Proof.
    assert (I : forall s l, List.length (Legacy.insertSorted s l) = S (List.length l)).
    { induction l as [|t l IH]; [reflexivity|]. cbn. destruct (Legacy.sleb s t); cbn; [reflexivity|]. rewrite IH. reflexivity. }
    induction l as [|s l IH]; [reflexivity|]. cbn. rewrite I. unfold Legacy.sortStrings in IH. rewrite IH. reflexivity.
  Qed.
  Lemma sort_cons : forall s l, exists t r, Legacy.sortStrings (s :: l) = t :: r.
  Proof.
    intros s l. pose proof (sort_length (s :: l)) as H. destruct (Legacy.sortStrings (s :: l)); [discriminate|eauto].
  Qed.
  Lemma valueTree_headed : forall v, Headed (valueTree v).
  Proof.
    apply value_induction.
    - intros [| | | | |[|x l]|[|x m]] H; try destruct H; cbn [valueTree]; try apply headed_scalar.
    - intros [|x l] _ F; [apply headed_scalar|]. cbn [valueTree map]. inversion F; subst. apply headed_seq. assumption.
    - intros [|[k v] m] _ F; [apply headed_scalar|]. cbn [valueTree]. cbv zeta. cbn [map fst].
      destruct (sort_cons (sprint sprintFloat k) (map (fun kv => sprint sprintFloat (fst kv)) m)) as (t & r & ->).
      cbn [map]. apply headed_map.
  Qed.
  Lemma inline_text : forall n t, Headed t -> text (render n t) = (nl +++ pad n +++ inline (render n t))%string.
  Proof.
    intros n t H. destruct (H n) as (s & r & ->). rewrite text_cons. cbn [rtext inline]. rewrite !sapp_assoc. reflexivity.
  Qed.

  Lemma writes_emit : forall s, Writes (emit s) (TScalar s).
  Proof. intros s out d z ix. step. apply mk_eq. Transparent render. cbn [render inline]. Opaque render. rewrite text_nil, sapp_nil_r. reflexivity. Qed.

  Lemma hang_headed : forall n t, Headed t -> forall s r, render (2 + n) t = Some (2 + n, s) :: r ->
    render n (TSeq [Some t]) = Some (n, "- " +++ s)%string :: r.
  Proof.
    intros n t H s r E. Transparent render. cbn [render flat_map]. Opaque render.
    change (S (S n)) with (2 + n). rewrite E. cbn [hang]. apply app_nil_r.
  Qed.
  (** The text of one item after its line break and indentation. *)
  Lemma item_text : forall n t, Headed t -> text (render n (TSeq [Some t])) = (nl +++ pad n +++ "- " +++ inline (render (2 + n) t))%string.
  Proof.
    intros n t H. destruct (H (2 + n)) as (s & r & E). rewrite (hang_headed n t H s r E), E. rewrite text_cons. cbn [rtext inline].
    rewrite !sapp_assoc. reflexivity.
  Qed.
  Lemma item_inline : forall n t l, Headed t ->
    inline (render n (TSeq (Some t :: l))) = ("- " +++ inline (render (2 + n) t) +++ text (render n (TSeq l)))%string.
  Proof.
    intros n t l H. rewrite render_seq_cons. destruct (H (2 + n)) as (s & r & E). rewrite (hang_headed n t H s r E), E.
    rewrite <- app_comm_cons. cbn [inline]. rewrite text_app. rewrite !sapp_assoc. reflexivity.
  Qed.

  Lemma writes_list : forall l, l <> [] -> Forall (fun v => Writes (writeDecoded v) (valueTree v)) l -> Writes (writeDecoded (VList l)) (valueTree (VList l)).
  Proof.
    intros l N F. destruct l as [|x l]; [congruence|]. clear N. cbn [Pretty.writeDecoded].
    set (items := fix items (first : bool) (l : list value) : writing :=
           match l with
           | [] => skip
           | x :: l' =>
               whenever (negb first) (emit nl >> indent) >> emit "- " >>
               indentIncrease >> writeDecoded x >> indentDecrease >> items false l'
           end).
    assert (R : forall l, Forall (fun v => Writes (writeDecoded v) (valueTree v)) l -> forall out d z ix,
              items false l (mk out d z ix) = Ok (mk (out +++ text (render (2 * d) (TSeq (map (fun x => Some (valueTree x)) l)))) d z ix)).
    { clear x l F. induction l as [|x l IH]; intros F out d z ix.
      - cbn [items map]. unfold skip. apply mk_eq. symmetry. apply sapp_nil_r.
      - cbn [items map negb whenever]. rewrite then_assoc. do 4 step. inversion F as [|? ? H1 H2]; subst.
        rewrite (then_ok _ _ _ _ (H1 _ _ _ _)). step. rewrite IH by assumption. apply mk_eq.
        rewrite render_seq_cons, text_app, item_text by apply valueTree_headed.
        replace (2 * S d) with (2 + 2 * d) by lia. rewrite !sapp_assoc. reflexivity. }
    intros out d z ix. change (items true (x :: l)) with (skip >> emit "- " >> indentIncrease >> writeDecoded x >> indentDecrease >> items false l).
    cbn [valueTree map]. inversion F as [|? ? H1 H2]; subst. do 3 step. rewrite (then_ok _ _ _ _ (H1 _ _ _ _)). step. rewrite R by assumption.
    apply mk_eq. rewrite item_inline by apply valueTree_headed. replace (2 * S d) with (2 + 2 * d) by lia. rewrite !sapp_assoc. reflexivity.
  Qed.

  Lemma lookup_map : forall {A B} (f : A -> B) k (m : list (value * A)),
    lookup k (map (fun kv => (fst kv, f (snd kv))) m) = option_map f (lookup k m).
  Proof.
    induction m as [|[[| | | |s| |] a] m IH]; try exact IH; [reflexivity|]. cbn. destruct (String.eqb k s); [reflexivity|exact IH].
  Qed.
  Lemma lookup_In : forall {A} k (m : list (value * A)) a, lookup k m = Some a -> In (VStr k, a) m.
  Proof.
    induction m as [|[[| | | |s| |] b] m IH]; intros a H; try (right; apply IH, H); [discriminate|].
    cbn in H. destruct (String.eqb_spec k s) as [->|]; [left; congruence|right; apply IH, H].
  Qed.

  (** The text of an entry after its indentation. *)
  Lemma entry_text : forall n k t, text (entryLines n k t) = (nl +++ pad n +++ inline (entryLines n k t))%string.
  Proof.
    intros n k t. unfold entryLines. apply inline_text, headed_map.
  Qed.
  Lemma entry_inline_app : forall n k t r, inline (entryLines n k t ++ r) = (inline (entryLines n k t) +++ text r)%string.
  Proof.
    intros n k t r. rewrite entryLines_eq. destruct t; cbn [app]; cbn [inline]; rewrite ?text_cons, ?text_nil, ?text_app, ?sapp_nil_r, !sapp_assoc; reflexivity.
  Qed.
  Lemma entry_scalar : forall n k s, inline (entryLines n k (TScalar s)) = (k +++ ": " +++ s)%string.
  Proof. intros. rewrite entryLines_eq. cbn [inline]. rewrite text_nil, sapp_nil_r. reflexivity. Qed.
  Lemma entry_below : forall n k b s, inline (entryLines n k (TBelow b s)) = (k +++ ":" +++ nl +++ pad (b + n) +++ s)%string.
  Proof. intros. rewrite entryLines_eq. cbn [inline]. rewrite text_cons, text_nil, sapp_nil_r. cbn [rtext]. rewrite !sapp_assoc. reflexivity. Qed.
  Lemma entry_seq : forall n k l, inline (entryLines n k (TSeq l)) = (k +++ ":" +++ text (render n (TSeq l)))%string.
  Proof. intros. rewrite entryLines_eq. cbn [inline]. rewrite !sapp_assoc. reflexivity. Qed.
  Lemma entry_map : forall n k l, inline (entryLines n k (TMap l)) = (k +++ ":" +++ text (render (2 + n) (TMap l)))%string.
  Proof. intros. rewrite entryLines_eq. cbn [inline]. rewrite !sapp_assoc. reflexivity. Qed.

  Lemma writes_entry : forall k v, Writes (writeDecoded v) (valueTree v) -> forall out d z ix,
    writeEntry iph k v (writeDecoded v) (mk out d z ix) =
    Ok (mk (out +++ inline (entryLines (2 * d) (enc k) (underKey v (valueTree v)))) d z ix).
  Proof.
    intros k v H out d z ix. unfold writeEntry, writeEncode. do 2 step.
    assert (Inline : forall s, underKey v (valueTree v) = TScalar s -> inline (render (2 * d) (valueTree v)) = s ->
      (emit " " >> writeDecoded v) (mk ((out +++ enc k) +++ ":") d z ix) =
      Ok (mk (out +++ inline (entryLines (2 * d) (enc k) (underKey v (valueTree v)))) d z ix)).
    { intros s E1 E2. step. rewrite H, E2, E1, entry_scalar. apply mk_eq. rewrite !sapp_assoc. reflexivity. }
    assert (Inl : forall s, inline (render (2 * d) (TScalar s)) = s).
    { intro s. Transparent render. cbn [render inline]. Opaque render. rewrite text_nil. apply sapp_nil_r. }
    destruct v as [|b|i|f|s|[|x l]|[|x m]]; cbn [isPrimative isZero orb isSlice negb emptyList];
      try (apply (Inline _ eq_refl); apply Inl).
    - (* integers *)
      cbn [underKey] in *. destruct (isInt i) eqn:Hi.
      + cbn [orb]. apply (Inline _ eq_refl), Inl.
      + cbn [orb andb whenever valueTree scalarOf Pretty.writeDecoded] in *. rewrite Hi. do 5 step.
        rewrite entry_below. apply mk_eq. rewrite !sapp_assoc. replace (2 * S d) with (2 + 2 * d) by lia. rewrite ?sapp_nil_r. reflexivity.
    - (* sequences *)
      cbn [whenever underKey] in *. do 3 step. rewrite (then_ok _ _ _ _ (H _ _ _ _)). unfold skip. apply mk_eq.
      pose proof (valueTree_headed (VList (x :: l))) as Hd.
      assert (exists l', valueTree (VList (x :: l)) = TSeq l') as [l' E] by (eexists; reflexivity). rewrite E in *.
      rewrite entry_seq, inline_text by exact Hd. rewrite !sapp_assoc. reflexivity.
    - (* mappings *)
      cbn [whenever underKey] in *. do 3 step. rewrite (then_ok _ _ _ _ (H _ _ _ _)). step. apply mk_eq.
      pose proof (valueTree_headed (VMap (x :: m))) as Hd.
      assert (exists l', valueTree (VMap (x :: m)) = TMap l') as [l' E] by (eexists; reflexivity). rewrite E in *.
      rewrite entry_map, (inline_text (2 + 2 * d)) by exact Hd. replace (2 * S d) with (2 + 2 * d) by lia. rewrite !sapp_assoc. reflexivity.
  Qed.
  Definition found (m : list (value * value)) (k : string) : tree :=
    match lookup k m with Some v => underKey v (valueTree v) | None => TScalar "~" end.
  Lemma writes_found : forall m k, Forall (fun kv => Writes (writeDecoded (snd kv)) (valueTree (snd kv))) m ->
    let (v, write) := match lookup k (map (fun kv => (fst kv, (snd kv, writeDecoded (snd kv)))) m) with Some e => e | None => (VNull, emit "~") end in
    forall out d z ix, writeEntry iph k v write (mk out d z ix) = Ok (mk (out +++ inline (entryLines (2 * d) (enc k) (found m k))) d z ix).
  Proof.
    intros m k F. rewrite (lookup_map (fun v => (v, writeDecoded v))). unfold found. destruct (lookup k m) as [v|] eqn:L; cbn [option_map].
    - apply writes_entry. apply lookup_In in L. rewrite Forall_forall in F. apply (F _ L).
    - apply (writes_entry k VNull). apply writes_emit.
  Qed.
  Lemma writes_entries : forall m, Forall (fun kv => Writes (writeDecoded (snd kv)) (valueTree (snd kv))) m ->
    forall keys out d z ix,
    writeEntries false keys (map (fun kv => (fst kv, (snd kv, writeDecoded (snd kv)))) m) (mk out d z ix) =
    Ok (mk (out +++ text (render (2 * d) (TMap (map (fun k => Some (enc k, found m k)) keys)))) d z ix).
  Proof.
    intros m F. induction keys as [|k keys IH]; intros out d z ix.
    - cbn [Pretty.writeEntries map]. unfold skip. apply mk_eq. symmetry. apply sapp_nil_r.
    - cbn [Pretty.writeEntries map]. pose proof (writes_found m k F) as W.
      destruct (match lookup k _ with Some e => e | None => _ end) as [v write]. cbn [negb whenever].
      rewrite then_assoc. do 2 step. rewrite (then_ok _ _ _ _ (W _ _ _ _)), IH. apply mk_eq.
      rewrite render_map_cons, text_app, entry_text. rewrite !sapp_assoc. reflexivity.
  Qed.
  Lemma valueTree_map : forall x m, valueTree (VMap (x :: m)) =
    TMap (map (fun k => Some (enc k, found (x :: m) k)) (Legacy.sortStrings (map (fun kv => sprint sprintFloat (fst kv)) (x :: m)))).
  Proof.
    intros x m. cbn [valueTree]. cbv zeta. f_equal. apply map_ext. intro k. do 2 f_equal.
    rewrite (lookup_map (fun v => (v, valueTree v))). unfold found. destruct (lookup k (x :: m)); reflexivity.
  Qed.

  Lemma writes_decoded : forall v, Writes (writeDecoded v) (valueTree v).
  Proof.
    apply value_induction.
    - intros [|b|i|f|s|[|x l]|[|x m]] H; try destruct H; try apply writes_emit.
      intros out d z ix. cbn [Pretty.writeDecoded valueTree scalarOf]. destruct (isInt i); [apply writes_emit|].
      unfold skip. apply mk_eq. symmetry. apply sapp_nil_r.
    - intros l N F. apply writes_list; assumption.
    - intros [|x m] N F out d z ix; [congruence|]. rewrite valueTree_map. cbn [Pretty.writeDecoded].
      destruct (sort_cons (sprint sprintFloat (fst x)) (map (fun kv => sprint sprintFloat (fst kv)) m)) as (k & r & E).
      cbn [map] in E |- *. rewrite E. cbn [Pretty.writeEntries].
      pose proof (writes_found (x :: m) k F) as W. cbn [map] in W.
      destruct (match lookup k _ with Some e => e | None => _ end) as [v write]. cbn [negb whenever]. step.
      rewrite (then_ok _ _ _ _ (W _ _ _ _)). change (?a :: map ?f m) with (map f (x :: m)). rewrite writes_entries by exact F. apply mk_eq.
      cbn [map]. rewrite render_map_cons, entry_inline_app. rewrite !sapp_assoc. reflexivity.
  Qed.
End Tree.
