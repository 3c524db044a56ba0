(** * PrettyText.v: strings, layout and secrets in the formatted text. *)
From Coq Require Import Lia.
From Verif Require Import Model.Go Model.Types Model.Decode Model.Encode Model.Quote Model.Pretty.
From Verif Require Import Spec.DecodeSpec Spec.YamlSpec Spec.PrettySpec Spec.LayoutSpec.
From Verif Require Import Proofs.GoFacts Proofs.PrettyTree Proofs.PrettyLayout Proofs.PrettyItems.
From Verif Require Import Proofs.YamlFacts Proofs.YamlStrings Proofs.YamlDocs Proofs.PrettyRound Proofs.PrettyMore.

(** ** Strings *)
Section Strings.
  Variable iph : N -> bool.
  Variable resolve : string -> node.
  Notation enc := (encodeString iph).
  Notation readYaml := (YamlSpec.readYaml resolve).

  Lemma split_clean : forall s, oneLine s = true -> split_on NL s = [s].
  Proof.
    intros s O. assert (H : hasChar NL s = false) by (unfold oneLine in O; destruct (hasChar NL s); [discriminate|reflexivity]). apply split_on_none, H.
  Qed.
  Lemma one_line : forall s, Clean s -> linesOf s = [(0, s)].
  Proof.
    intros s (N & P & O). unfold linesOf. rewrite (split_clean s O). cbn [map]. f_equal. destruct s as [|c s]; [congruence|]. cbn [leading]. destruct (isBlank c) eqn:B; [|reflexivity].
    exfalso. unfold isBlank in B. apply Ascii.eqb_eq in B. subst c. discriminate P.
  Qed.
  Lemma read_good : forall s, GoodScalar resolve s -> readYaml s = Some (scalarNode resolve s).
  Proof. intros s G. unfold YamlSpec.readYaml. rewrite (one_line s (proj1 G)). apply read_scalar_block; [exact G|reflexivity]. Qed.
  Lemma read_string : Resolver resolve -> forall s, Readable s -> exists n, readYaml (enc s) = Some n /\ IsText n s /\ n <> NNull.
  Proof.
    intros HR s R. exists (scalarNode resolve (enc s)). split; [apply read_good, enc_scalar, R|]. apply enc_text; assumption.
  Qed.
  Lemma quoted_prefix : forall s, hasPrefix (enc s) (String """" "") = isQuoted s.
  Proof.
    assert (H : forall c x, hasPrefix (String c x) (String """" "") = Ascii.eqb """" c).
    { intros c x. unfold hasPrefix. cbn [String.prefix]. destruct (ascii_dec """" c) as [<-|N]; [destruct x; reflexivity|]. symmetry. apply Ascii.eqb_neq, N. }
    intro s. destruct (isQuoted s) eqn:Q; [rewrite (enc_quoted iph s Q); apply H|]. rewrite (enc_plain iph s Q). destruct s as [|c s]; [discriminate Q|].
    rewrite H. destruct (Ascii.eqb_spec """" c) as [<-|N]; [|reflexivity]. exfalso. unfold isQuoted in Q. cbn [isEmpty] in Q. destruct (trimChanges _); [discriminate Q|]. cbv zeta in Q. discriminate Q.
  Qed.
  Lemma good_quoted : forall s, Legible s -> isQuoted s = true -> GoodScalar resolve (enc s) /\ scalarNode resolve (enc s) = NStr s.
  Proof.
    intros s L Q. pose proof (enc_visible iph s L) as V. apply visible_oneLine in V.
    assert (RS : YamlSpec.readScalar resolve (enc s) = Some (NStr s)).
    { rewrite enc_quoted by exact Q. unfold YamlSpec.readScalar. cbn [String.append]. rewrite (read_enc_quoted iph s "" L). cbn. reflexivity. }
    split; [|unfold scalarNode; rewrite RS; reflexivity]. split; [split; [|split; [|exact V]]|].
    - rewrite enc_quoted by exact Q. discriminate.
    - rewrite enc_quoted by exact Q. reflexivity.
    - split; [rewrite enc_quoted by exact Q; discriminate|]. split; [rewrite enc_quoted by exact Q; reflexivity|]. split; [|rewrite RS; discriminate].
      rewrite enc_quoted by exact Q. unfold YamlSpec.readKey. cbn [String.append]. change (Ascii.eqb """" """") with true. cbn iota.
      rewrite (read_enc_quoted iph s "" L). reflexivity.
  Qed.
  Lemma read_quoted : forall s, Legible s -> hasPrefix (enc s) (String """" "") = true -> readYaml (enc s) = Some (NStr s).
  Proof. intros s L P. rewrite quoted_prefix in P. destruct (good_quoted s L P) as [G E]. rewrite (read_good _ G), E. reflexivity. Qed.
  Lemma read_marked : forall c s, hasChar c "&!" = true -> oneLine (String c s) = true -> readYaml (String c s) = None.
  Proof.
    intros c s C O. assert (B : c = "&"%char \/ c = "!"%char) by (apply hasChar_In in C; cbn in C; intuition congruence).
    assert (K : Clean (String c s)) by (split; [discriminate|]; split; [destruct B; subst c; reflexivity|exact O]).
    unfold YamlSpec.readYaml. rewrite (one_line _ K). set (f := String.length (String c s)). cbn [YamlSpec.readBlock dropBlank]. unfold blankLine at 1. cbn [snd isEmpty].
    assert (D : isDash (String c s) = false) by (destruct B; subst c; reflexivity). rewrite D.
    assert (RK : YamlSpec.readKey resolve (String c s) = None).
    { unfold YamlSpec.readKey. replace (Ascii.eqb c """") with false by (destruct B; subst c; reflexivity). destruct (cutColon (String c s)) as [[k v]|] eqn:E; [|reflexivity].
      assert (Pk : isPlain k = false); [|rewrite Pk; reflexivity]. cbn [cutColon] in E. replace (afterColon (String c s)) with (@None string) in E by (destruct B; subst c; reflexivity).
      destruct (cutColon s) as [[k' v']|]; [|discriminate]. injection E as <- <-. destruct B; subst c; reflexivity. }
    rewrite RK. cbn [forallb]. unfold YamlSpec.readScalar. destruct B; subst c; reflexivity.
  Qed.
  Lemma read_back : Resolver resolve -> forall s, Legible s ->
    (exists n, readYaml (enc s) = Some n /\ IsText n s /\ n <> NNull) <-> hasPrefix (enc s) (String """" "") = true \/ Readable s.
  Proof.
    intros HR s L. split.
    - intros (n & R & T & N). rewrite quoted_prefix. destruct (isQuoted s) eqn:Q; [left; reflexivity|right]. rewrite (enc_plain iph s Q) in R.
      pose proof (visible_oneLine _ (plain_written s Q L)) as O.
      assert (Dash : s <> "-"). { intros ->. vm_compute in R. injection R as <-. inversion T. }
      assert (Quest : s <> "?"). { intros ->. vm_compute in R. discriminate R. }
      split; [exact L|]. split; [|split; [exact Dash|split; [exact Quest|]]].
      + intros Ne I. assert (Rs : readYaml s = Some (resolve s)).
        { cbn in I. destruct I as [<-|[<-|[<-|[<-|[<-|[]]]]]]; [congruence| | | |]; (rewrite read_good; [|apply plain_good; reflexivity]; f_equal; apply plain_good; reflexivity). }
        rewrite Rs, (resolve_null _ HR s I) in R. congruence.
      + destruct s as [|c s]; [exact Logic.I|]. split; intros ->; rewrite read_marked in R by (reflexivity || exact O); discriminate R.
    - intros [P|R]; [|exact (read_string HR s R)]. exists (NStr s). split; [apply read_quoted; assumption|]. split; [constructor|discriminate].
  Qed.
  Lemma read_entry : Resolver resolve -> forall k s, ReadableKey k -> Readable s ->
    exists kn n, readYaml (enc k +++ ": " +++ enc s)%string = Some (NMap [(kn, n)]) /\ IsText kn k /\ kn <> NNull /\ IsText n s /\ n <> NNull.
  Proof.
    intros HR k s K R. exists (scalarNode resolve (enc k)), (scalarNode resolve (enc s)).
    destruct (enc_text iph resolve HR k (proj1 K)) as [T1 N1]. destruct (enc_text iph resolve HR s R) as [T2 N2]. repeat (split; [|solve [auto]] || split); try assumption.
    destruct (enc_key iph resolve k K) as (C & RK & E). destruct (enc_scalar iph resolve s R) as [(Cs & Ns & Ds & Ks & Rs) _].
    set (l := (enc k +++ ": " +++ enc s)%string).
    assert (L : l = (enc k +++ ":" +++ spaced (enc s))%string) by (unfold l, spaced; destruct (enc s) eqn:Z; [destruct Cs; congruence|reflexivity]).
    assert (Cl : Clean l).
    { destruct C as (C1 & C2 & C3). destruct Cs as (Cs1 & Cs2 & Cs3). unfold l. split; [destruct (enc k); [congruence|discriminate]|]. split; [destruct (enc k); [congruence|exact C2]|].
      rewrite !oneLine_app, C3, Cs3. reflexivity. }
    destruct (E (enc s)) as [E1 E2]. rewrite <- L in E1, E2.
    unfold YamlSpec.readYaml. rewrite (one_line l Cl). cbn [YamlSpec.readBlock dropBlank]. unfold blankLine at 1. cbn [snd].
    destruct l as [|a l'] eqn:Z; [destruct Cl; congruence|]. rewrite <- Z in *. replace (isEmpty l) with false by (rewrite Z; reflexivity).
    rewrite E2, E1. cbn [group]. unfold startsEntry at 1. cbn [fst snd]. unfold blankLine. cbn [snd]. replace (isEmpty l) with false by (rewrite Z; reflexivity). rewrite E2. cbn [Nat.eqb negb andb].
    cbn [allIn forallb snd fst optTraverse andb]. rewrite E1. destruct (enc s) as [|b t] eqn:Y; [destruct Cs; congruence|]. cbn [isEmpty]. rewrite <- Y in *.
    destruct (String.eqb_spec (enc s) ">") as [G|_]; [congruence|]. 
    assert (Sn : YamlSpec.readScalar resolve (enc s) = Some (scalarNode resolve (enc s))) by (unfold scalarNode; destruct (YamlSpec.readScalar resolve (enc s)); [reflexivity|congruence]).
    rewrite Sn. reflexivity.
  Qed.
End Strings.

(** ** Layout *)
Definition Least (n : nat) (l : option (nat * string)) : Prop := match l with Some (m, _) => n <= m | None => True end.
Lemma least_mono : forall n m ls, n <= m -> Forall (Least m) ls -> Forall (Least n) ls.
Proof. intros n m ls H F. eapply Forall_impl; [|exact F]. intros [[k s]|] L; cbn in *; lia. Qed.
Lemma hang_least : forall n m ls, n <= m -> Forall (Least m) ls -> Forall (Least n) (hang n ls).
Proof.
  intros n m ls H F. induction F as [|l ls L F IH]; [constructor|]. destruct l as [[k s]|]; cbn [hang]; [|constructor; [exact I|exact IH]].
  constructor; [cbn; lia|]. eapply least_mono; [exact H|exact F].
Qed.
Lemma render_least : forall t n, Forall (Least n) (render n t).
Proof.
  fix IH 1. intros [s|b s|l|l|l] n; cbn [render].
  - constructor; [cbn; lia|constructor].
  - constructor; [cbn; lia|constructor].
  - apply Forall_map, Forall_forall. intros s _. cbn. lia.
  - induction l as [|[t|] l IHl]; [constructor| |]; cbn [flat_map].
    + apply Forall_app. split; [|exact IHl]. apply (hang_least n (2 + n)); [lia|apply IH].
    + constructor; [exact I|exact IHl].
  - induction l as [|[[k t]|] l IHl]; [constructor| |]; cbn [flat_map].
    + apply Forall_app. split; [|exact IHl]. specialize (IH t). destruct t as [s|b s|l'|l'|l'].
      * constructor; [cbn; lia|constructor].
      * constructor; [cbn; lia|]. constructor; [cbn; lia|constructor].
      * constructor; [cbn; lia|]. apply (least_mono n (2 + n)); [lia|apply IH].
      * constructor; [cbn; lia|]. apply IH.
      * constructor; [cbn; lia|]. apply (least_mono n (2 + n)); [lia|apply IH].
    + constructor; [exact I|exact IHl].
Qed.
Lemma pad_plus : forall n m, pad (n + m) = (pad n +++ pad m)%string.
Proof. induction n as [|n IH]; intro m; [reflexivity|]. cbn. rewrite IH. reflexivity. Qed.
Lemma least_indented : forall n ls, Forall (Least n) ls -> Indented n (text ls).
Proof.
  intros n ls F. exists (map (fun l : option (nat * string) => match l with Some (m, s) => pad m +++ s | None => "" end)%string ls). split.
  - unfold text. rewrite map_map. f_equal. apply map_ext. intros [[m s]|]; reflexivity.
  - apply Forall_map. eapply Forall_impl; [|exact F]. intros [[m s]|] L; cbn in L; [right|left; reflexivity]. exists (pad (m - n) +++ s)%string.
    change (blanks n) with (pad n). rewrite <- sapp_assoc, <- pad_plus. do 2 f_equal. lia.
Qed.
Lemma steady_mk : forall w, Steady w -> w = mk (w_out w) (Z.to_nat (w_depth w)) (w_zero w) (w_index w) /\ Ready (Z.to_nat (w_depth w)) (w_zero w) (w_index w).
Proof.
  intros [out d z ix] [D S]. cbn [w_out w_depth w_zero w_index] in *. split; [unfold mk; rewrite Z2Nat.id by exact D; reflexivity|]. split.
  - destruct ix as [|[i b] r]; cbn; [exact S|apply S].
  - intro N. destruct ix as [|[i b] r]; [congruence|]. destruct S. lia.
Qed.
Lemma acts_balanced : forall f o, Acts f o -> Balanced f.
Proof.
  intros f o A w w' S E. destruct (steady_mk w S) as [W R]. specialize (A (w_out w) _ _ _ R). rewrite <- W in A. rewrite E in A.
  destruct o as [its|]; [|discriminate]. destruct A as (ix' & A & F). injection A as ->. unfold mk. cbn [w_depth w_zero w_index w_out].
  destruct S as [D S]. split; [apply Z2Nat.id, D|]. split; [reflexivity|].
  assert (IX : List.length ix' = List.length (w_index w) /\ match ix' with [] => w_zero w = false | (_, b) :: _ => b = false /\ (1 <= w_depth w)%Z end).
  { destruct (w_index w) as [|[i b] r]; cbn in F; [subst ix'; split; [reflexivity|exact S]|]. destruct F as (i' & -> & _). split; [reflexivity|exact S]. }
  split; [apply IX|]. split; [split; cbn [w_depth w_index w_zero]; rewrite Z2Nat.id by exact D; [exact D|apply IX]|].
  eexists. split; [reflexivity|]. apply least_indented. unfold place, indentation. destruct (w_index w) as [|[[|i] b] r]; try apply render_least.
  rewrite Z2Nat.inj_sub by lia. change (Z.to_nat 1) with 1. apply (hang_least _ (2 * Z.to_nat (w_depth w))); [lia|apply render_least].
Qed.

(** ** Secrets *)
Section Secrets.
  Variable iph : N -> bool.
  Variables formatFloat sprintFloat : float64 -> string.
  Variable bytesSize : Z -> string.
  Notation enc := (encodeString iph).
  Notation tag := (tagItems iph formatFloat sprintFloat bytesSize).
  Definition field (indent : nat) (k v : string) : string := if isEmpty v then "" else (nl +++ pad indent +++ enc k +++ ": " +++ enc v)%string.
  Lemma text_field : forall n k v its, exists a, tag k (AString v) = Some a /\ text (render n (TMap (a ++ its))) = (field n k v +++ text (render n (TMap its)))%string.
  Proof.
    intros n k v its. unfold tagItems, field. cbn [isZero AString]. destruct v as [|c v]; cbn [isEmpty]; [exists []; split; reflexivity|]. eexists. split; [reflexivity|].
    cbn [app]. rewrite render_map_cons, text_app. f_equal. rewrite entryLines_eq. cbn [PrettyTree.anyTree AString below PrettyTree.valueTree scalarOf]. rewrite text_cons, text_nil, sapp_nil_r. reflexivity.
  Qed.
  Definition foldText (ps : list string) : string := concats (map (fun p => nl +++ pad 2 +++ p)%string ps).
  Lemma text_fold : forall ps its, text (render 0 (TMap (Some (enc "data", TFold ps) :: its))) = (nl +++ "data: >" +++ foldText ps +++ text (render 0 (TMap its)))%string.
  Proof.
    intros ps its. rewrite render_map_cons, text_app, entryLines_eq, text_cons. cbn [rtext pad]. 
    replace (text (render (2 + 0) (TFold ps))) with (foldText ps); [rewrite !sapp_assoc; reflexivity|].
    unfold foldText, text. cbn [render]. rewrite map_map. reflexivity.
  Qed.
  Lemma secret_text : forall s,
    Pretty.print iph formatFloat sprintFloat bytesSize {| mf_resources := [RSecret s] |} =
    Ok ("---" +++ field 0 "version" (se_version s) +++ field 0 "kind" (se_kind s) +++ field 0 "type" (se_type s) +++
        (if isEmpty (se_data s) then "" else field 0 "name" (se_name s) +++ nl +++ "data: >" +++ foldText (chunk (removeSpaces (se_data s)) 60)) +++
        (if isSecretGetEmpty s then "" else
           field 0 "name" (se_name s) +++ nl +++ nl +++ "get:" +++
           field 2 "path" (se_get_path s) +++ field 2 "name" (se_get_name s) +++ field 2 "key" (se_get_key s)) +++
        nl +++ nl +++ "..." +++ nl)%string.
  Proof.
    intro s. rewrite format_single. unfold single. cbn [isRegistry resourceItems]. unfold secretItems, dataItems, getItems.
    assert (G : exists g, inMap iph "get" (tag "path" (AString (se_get_path s)) +? tag "name" (AString (se_get_name s)) +? tag "key" (AString (se_get_key s))) = Some [Some (enc "get", TMap g)] /\
      text (render 2 (TMap g)) = (field 2 "path" (se_get_path s) +++ field 2 "name" (se_get_name s) +++ field 2 "key" (se_get_key s))%string).
    { destruct (text_field 2 "key" (se_get_key s) []) as (a3 & E3 & T3). destruct (text_field 2 "name" (se_get_name s) (a3 ++ [])) as (a2 & E2 & T2). destruct (text_field 2 "path" (se_get_path s) (a2 ++ a3 ++ [])) as (a1 & E1 & T1).
      exists (a1 ++ a2 ++ a3). unfold inMap, under. rewrite E1, E2, E3. split; [reflexivity|]. rewrite app_nil_r in *. rewrite T1, T2, T3. cbn [render flat_map]. rewrite text_nil, sapp_nil_r. reflexivity. }
    destruct G as (g & G1 & G2). rewrite G1. clear G1.
    set (tail := [None; None] : list (option (string * tree))).
    assert (GT : exists b, only (negb (isSecretGetEmpty s)) (tag "name" (AString (se_name s)) +? blank +? Some [Some (enc "get", TMap g)]) = Some b /\
      text (render 0 (TMap (b ++ tail))) = ((if isSecretGetEmpty s then "" else
           field 0 "name" (se_name s) +++ nl +++ nl +++ "get:" +++ field 2 "path" (se_get_path s) +++ field 2 "name" (se_get_name s) +++ field 2 "key" (se_get_key s)) +++ nl +++ nl)%string).
    { destruct (isSecretGetEmpty s); [exists []; split; reflexivity|]. destruct (text_field 0 "name" (se_name s) (None :: Some (enc "get", TMap g) :: tail)) as (a & E & T).
      exists (a ++ [None; Some (enc "get", TMap g)]). rewrite E. split; [reflexivity|]. rewrite <- app_assoc. cbn [app]. rewrite T, !sapp_assoc. f_equal.
      change (None :: Some (enc "get", TMap g) :: tail) with ([None] ++ Some (enc "get", TMap g) :: tail). rewrite render_map_app, text_app, render_map_cons, text_app, entryLines_eq, text_cons. change (2 + 0) with 2. rewrite G2.
      cbn [rtext pad]. rewrite !sapp_assoc. reflexivity. }
    destruct GT as (b & B1 & B2). rewrite B1. clear B1.
    assert (DT : exists d, only (negb (isEmpty (se_data s))) (tag "name" (AString (se_name s)) +? under iph "data" (Some (TFold (chunk (removeSpaces (se_data s)) 60)))) = Some d /\
      forall its, text (render 0 (TMap (d ++ its))) = ((if isEmpty (se_data s) then "" else field 0 "name" (se_name s) +++ nl +++ "data: >" +++ foldText (chunk (removeSpaces (se_data s)) 60)) +++ text (render 0 (TMap its)))%string).
    { destruct (isEmpty (se_data s)); [exists []; split; reflexivity|]. destruct (text_field 0 "name" (se_name s) []) as (a & E & _).
      exists (a ++ [Some (enc "data", TFold (chunk (removeSpaces (se_data s)) 60))]). rewrite E. split; [reflexivity|]. intro its. rewrite <- app_assoc. cbn [app].
      destruct (text_field 0 "name" (se_name s) (Some (enc "data", TFold (chunk (removeSpaces (se_data s)) 60)) :: its)) as (a' & E' & T). rewrite E in E'. injection E' as <-. rewrite T, text_fold, !sapp_assoc. reflexivity. }
    destruct DT as (d & D1 & D2). rewrite D1. clear D1.
    destruct (text_field 0 "type" (se_type s) (d ++ b ++ tail)) as (a3 & E3 & T3). destruct (text_field 0 "kind" (se_kind s) (a3 ++ d ++ b ++ tail)) as (a2 & E2 & T2).
    destruct (text_field 0 "version" (se_version s) (a2 ++ a3 ++ d ++ b ++ tail)) as (a1 & E1 & T1). rewrite E1, E2, E3.
    match goal with |- context [option_map docText ?x] => change x with (Some (a1 ++ a2 ++ a3 ++ d ++ b ++ tail)) end. cbn [option_map]. unfold docText.
    rewrite T1, T2, T3, D2, B2, !sapp_assoc. reflexivity.
  Qed.
End Secrets.

(** ** Documents *)
Section Docs.
  Variable iph : N -> bool.
  Variables formatFloat sprintFloat : float64 -> string.
  Variable bytesSize : Z -> string.
  Notation actual f := (f iph formatFloat sprintFloat bytesSize) (only parsing).
  Definition EndsBlank (o : option (list (option (string * tree)))) : Prop := forall its, o = Some its -> exists x, its = x ++ [None].
  Lemma endsBlank : EndsBlank blank.
  Proof. intros its E. injection E as <-. exists []. reflexivity. Qed.
  Lemma endsBlank_app : forall a b, EndsBlank b -> EndsBlank (a +? b).
  Proof.
    intros [a|] [b|] H its E; try discriminate. injection E as <-. destruct (H b eq_refl) as (x & ->). exists (a ++ x). apply app_assoc.
  Qed.
  Lemma resource_ends : forall r, isRegistry r = false -> EndsBlank (resourceItems iph formatFloat sprintFloat bytesSize r).
  Proof.
    intros [c|p|s|g|r] N; try discriminate; cbn [resourceItems]; unfold cronItems, pipelineItems, secretItems, signatureItems; repeat (apply endsBlank_app); apply endsBlank.
  Qed.
  Lemma single_text : forall r t, actual Pretty.print {| mf_resources := [r] |} = Ok (t +++ "..." +++ nl)%string ->
    if isRegistry r then t = "" else exists u v, t = ("---" +++ nl +++ u)%string /\ t = (v +++ nl)%string.
  Proof.
    intros r t E. rewrite format_single in E. unfold single in E. destruct (isRegistry r) eqn:R.
    - assert (E' : ("" +++ "..." +++ nl = t +++ "..." +++ nl)%string) by congruence. symmetry. apply (sapp_inv_tail "" t ("..." +++ nl)). exact E'.
    - pose proof (resource_ends r R) as B. destruct (resourceItems _ _ _ _ r) as [its|]; [|discriminate]. cbn [option_map] in E.
      assert (E' : (docText its +++ "..." +++ nl = t +++ "..." +++ nl)%string) by congruence. apply sapp_inv_tail in E'. subst t.
      destruct (B its eq_refl) as (x & ->). unfold docText. rewrite render_map_app, text_app. change (text (render 0 (TMap [None]))) with nl.
      assert (S : exists u, (text (render 0 (TMap x)) +++ nl = nl +++ u)%string).
      { destruct (render 0 (TMap x)) as [|[[n s]|] ls]; [exists ""; reflexivity| |]; rewrite text_cons; cbn [rtext]; rewrite !sapp_assoc; eexists; reflexivity. }
      destruct S as (u & S). exists u, ("---" +++ text (render 0 (TMap x)))%string. rewrite S. split; [reflexivity|]. rewrite <- S, sapp_assoc. reflexivity.
  Qed.
End Docs.

(** ** Text that is plainly readable *)
Definition plainly (s : string) : bool :=
  sforallb printable s && negb (smem s ["~"; "null"; "Null"; "NULL"; "-"; "?"]) &&
  match s with String c _ => negb (hasChar c "&!") | "" => true end.
Lemma plainly_readable : forall s, plainly s = true -> Readable s.
Proof.
  intros s H. unfold plainly in H. apply andb_prop in H. destruct H as [H H3]. apply andb_prop in H. destruct H as [H1 H2].
  assert (N : ~ In s ["~"; "null"; "Null"; "NULL"; "-"; "?"]) by (intro I; apply smem_In in I; rewrite I in H2; discriminate).
  split; [|split; [|split; [|split]]].
  - destruct (visible_ascii s H1) as (rs & E & F). exists rs. split; [exact E|]. eapply Forall_impl; [|exact F]. intros r Y. left. exact Y.
  - intros Ne I. apply N. cbn in I |- *. intuition congruence.
  - intros ->. apply N. cbn. tauto.
  - intros ->. apply N. cbn. tauto.
  - destruct s as [|c s]; [exact I|]. split; intros ->; discriminate H3.
Qed.
