(** * RandFacts.v: random names. *)
From Coq Require Import Lia.
From Verif Require Import Model.Go Model.Rand Spec.NameSpec Proofs.GoFacts.

Lemma usable_spec b : N.ltb maxrb (code b) = negb (usable b).
Proof. destruct b as [[] [] [] [] [] [] [] []]; reflexivity. Qed.
Lemma letter_spec b : String.get (N.to_nat (code b mod clen)) chars = Some (letter b).
Proof. destruct b as [[] [] [] [] [] [] [] []]; reflexivity. Qed.
Lemma length_string l : String.length (string_of_list_ascii l) = length l.
Proof. induction l; cbn; congruence. Qed.
Lemma string_app a b : string_of_list_ascii (a ++ b) = (string_of_list_ascii a +++ string_of_list_ascii b)%string.
Proof. induction a; cbn; congruence. Qed.

Definition name (l : list ascii) : string := string_of_list_ascii (map letter l).
Lemma take_spec bytes : forall got, length got < 32 ->
  takeBytes bytes (name got) =
  (let all := got ++ filter usable bytes in
   if Nat.leb 32 (length all) then (name (firstn 32 all), true) else (name all, false)).
Proof.
  induction bytes as [|b bytes IH]; intros got L; cbn [takeBytes filter].
  - rewrite app_nil_r. cbn zeta. destruct (Nat.leb_spec 32 (length got)); [lia|reflexivity].
  - rewrite usable_spec. destruct (usable b) eqn:U; cbn [negb].
    + rewrite letter_spec. assert (E : (name got +++ String (letter b) "")%string = name (got ++ [b])) by (unfold name; rewrite map_app, string_app; reflexivity).
      rewrite E. cbn zeta. replace (got ++ b :: filter usable bytes) with ((got ++ [b]) ++ filter usable bytes) by (rewrite <- app_assoc; reflexivity).
      assert (Ln : String.length (name (got ++ [b])) = S (length got)) by (unfold name; rewrite length_string, map_length, app_length; cbn; lia).
      rewrite Ln. change nameLength with 32. destruct (Nat.eqb_spec (S (length got)) 32) as [X|X].
      * assert (LG : length (got ++ [b]) = 32) by (rewrite app_length; cbn; lia).
        rewrite app_length, LG. cbn [Nat.leb]. replace (Nat.leb 32 (32 + length (filter usable bytes))) with true by (symmetry; apply Nat.leb_le; lia).
        rewrite firstn_app, LG, Nat.sub_diag, firstn_O, app_nil_r. rewrite firstn_all2 by lia. reflexivity.
      * rewrite IH by (rewrite app_length; cbn; lia). reflexivity.
    + apply IH, L.
Qed.
Lemma blocks_split read k blocks : Blocks read (S k) blocks -> exists b rest, blocks = b :: rest /\ read 0 = Some b /\ Blocks (fun i => read (S i)) k rest.
Proof.
  unfold Blocks. cbn [seq map]. destruct blocks as [|b rest]; [discriminate|]. cbn [map]. intros [= E F]. exists b, rest. split; [reflexivity|]. split; [exact E|].
  rewrite <- seq_shift, map_map in F. exact F.
Qed.
Lemma readLoop_shift read fuel : forall i b, readLoop read fuel (S i) b = readLoop (fun j => read (S j)) fuel i b.
Proof. induction fuel as [|fuel IH]; intros i b; cbn; [reflexivity|]. destruct (read (S i)); [|reflexivity]. destruct (takeBytes l b) as [b' []]; [reflexivity|apply IH]. Qed.
Lemma read_enough k : forall read blocks got fuel, Blocks read k blocks -> length got < 32 -> 32 <= length (got ++ usableBytes blocks) -> k <= fuel ->
  readLoop read fuel 0 (name got) = Some (Ok (name (firstn 32 (got ++ usableBytes blocks)))).
Proof.
  induction k as [|k IH]; intros read blocks got fuel B L E F.
  - destruct blocks; [|discriminate]. cbn in E. rewrite app_nil_r in E. lia.
  - destruct fuel as [|fuel]; [lia|]. apply blocks_split in B as (b & rest & -> & R & B). cbn [readLoop]. rewrite R, take_spec by exact L. cbn zeta.
    unfold usableBytes in *. cbn [concat] in *. rewrite filter_app in *. rewrite app_assoc in *. destruct (Nat.leb_spec 32 (length (got ++ filter usable b))) as [X|X].
    + rewrite (firstn_app 32 (got ++ filter usable b)). replace (32 - length (got ++ filter usable b)) with 0 by lia. rewrite firstn_O, app_nil_r. reflexivity.
    + rewrite readLoop_shift. apply IH; [exact B|exact X|exact E|lia].
Qed.
Lemma read_fails k : forall read blocks got fuel, Blocks read k blocks -> length (got ++ usableBytes blocks) < 32 -> read k = None -> k < fuel ->
  readLoop read fuel 0 (name got) = Some Panic.
Proof.
  induction k as [|k IH]; intros read blocks got fuel B L E F; (destruct fuel as [|fuel]; [lia|]).
  - cbn. rewrite E. reflexivity.
  - apply blocks_split in B as (b & rest & -> & R & B). cbn [readLoop]. unfold usableBytes in *. cbn [concat] in *. rewrite filter_app in *. rewrite app_assoc in *.
    rewrite app_length in L. rewrite R, take_spec by (rewrite app_length in L; lia). cbn zeta. destruct (Nat.leb_spec 32 (length (got ++ filter usable b))) as [X|X]; [lia|].
    rewrite readLoop_shift. eapply IH; [exact B|unfold usableBytes; rewrite app_length; exact L|exact E|lia].
Qed.
Lemma read_goes_on k : forall read blocks got fuel, Blocks read k blocks -> length (got ++ usableBytes blocks) < 32 -> fuel <= k ->
  readLoop read fuel 0 (name got) = None.
Proof.
  induction k as [|k IH]; intros read blocks got fuel B L F; (destruct fuel as [|fuel]; [reflexivity|]); [lia|].
  apply blocks_split in B as (b & rest & -> & R & B). cbn [readLoop]. unfold usableBytes in *. cbn [concat] in *. rewrite filter_app in *. rewrite app_assoc in *.
  rewrite app_length in L. rewrite R, take_spec by (rewrite app_length in L; lia). cbn zeta. destruct (Nat.leb_spec 32 (length (got ++ filter usable b))) as [X|X]; [lia|].
  rewrite readLoop_shift. eapply IH; [exact B|unfold usableBytes; rewrite app_length; exact L|lia].
Qed.

Theorem name_from_bytes read k blocks fuel : Blocks read k blocks ->
  (32 <= length (usableBytes blocks) -> k <= fuel ->
     randString read fuel = Some (Ok (string_of_list_ascii (map letter (firstn 32 (usableBytes blocks)))))) /\
  (length (usableBytes blocks) < 32 -> read k = None -> k < fuel -> randString read fuel = Some Panic) /\
  (length (usableBytes blocks) < 32 -> fuel <= k -> randString read fuel = None).
Proof.
  intro B. unfold randString. change "" with (name []). split; [|split]; intros.
  - apply (read_enough k read blocks [] fuel B); cbn; [lia|assumption|assumption].
  - apply (read_fails k read blocks [] fuel B); assumption.
  - apply (read_goes_on k read blocks [] fuel B); assumption.
Qed.
(** One block of the size that is asked for is enough unless more than eight of its bytes are thrown away. *)
Theorem name_one_read read bytes : read 0 = Some bytes -> length bytes = blockLength ->
  (length (filter (fun b => negb (usable b)) bytes) <= 8 <-> exists s, randString read 1 = Some (Ok s)).
Proof.
  intros R L. assert (B : Blocks read 1 [bytes]) by (unfold Blocks; cbn; now rewrite R).
  destruct (name_from_bytes read 1 [bytes] 1 B) as (H1 & _ & H3).
  unfold usableBytes in *. cbn [concat] in *. rewrite app_nil_r in *.
  assert (F : length (filter usable bytes) + length (filter (fun b => negb (usable b)) bytes) = length bytes).
  { clear. induction bytes as [|b l IH]; [reflexivity|]. cbn [filter]. destruct (usable b); cbn [negb length]; lia. }
  change blockLength with 40 in L. split.
  - intro H. eexists. apply H1; lia.
  - intros (s & E). destruct (Nat.leb_spec 32 (length (filter usable bytes))) as [X|X]; [lia|]. rewrite H3 in E by lia. discriminate.
Qed.
Lemma letter_in b : In (letter b) alphabet.
Proof. apply nth_In. change (length alphabet) with 36. apply Nat.mod_upper_bound. discriminate. Qed.
(** However the name came about. *)
Theorem name_shape read fuel s : randString read fuel = Some (Ok s) ->
  String.length s = 32 /\ Forall (fun c => In c alphabet) (list_ascii_of_string s).
Proof.
  assert (G : forall fuel i got, length got < 32 -> readLoop read fuel i (name got) = Some (Ok s) -> exists l, length l = 32 /\ s = name l).
  { clear fuel. induction fuel as [|fuel IH]; intros i got L H; cbn [readLoop] in H; [discriminate|]. destruct (read i) as [bytes|]; [|discriminate].
    rewrite take_spec in H by exact L. cbn zeta in H. destruct (Nat.leb_spec 32 (length (got ++ filter usable bytes))) as [X|X].
    - injection H as <-. exists (firstn 32 (got ++ filter usable bytes)). split; [|reflexivity]. rewrite firstn_length. lia.
    - exact (IH _ _ X H). }
  intro H. destruct (G fuel 0 [] ltac:(cbn; lia) H) as (l & L & ->). unfold name. split; [rewrite length_string, map_length; exact L|].
  rewrite list_ascii_of_string_of_list_ascii. apply Forall_map, Forall_forall. intros b _. apply letter_in.
Qed.
(** All 256 byte values. *)
Lemma allBytes_all b : In b allBytes /\ NoDup allBytes.
Proof.
  split.
  - unfold allBytes. rewrite <- (ascii_nat_embedding b). apply in_map, in_seq. pose proof (nat_ascii_bounded b). lia.
  - unfold allBytes. assert (H : forall l, NoDup l -> Forall (fun i => i < 256) l -> NoDup (map ascii_of_nat l)).
    { induction l as [|x l IH]; intros N F; cbn; [constructor|]. inversion N; inversion F; subst. constructor; [|auto]. intro X. apply in_map_iff in X as (y & E & Hy).
      assert (y = x) by (rewrite <- (nat_ascii_embedding x), <- (nat_ascii_embedding y), E by (try assumption; rewrite Forall_forall in *; auto); reflexivity). congruence. }
    apply H; [apply seq_NoDup|]. apply Forall_forall. intros i Hi. apply in_seq in Hi. lia.
Qed.
Theorem letters_uniform : Forall (fun c => length (filter (fun b => usable b && Ascii.eqb (letter b) c) allBytes) = 7) alphabet /\
  NoDup alphabet /\ length alphabet = 36 /\ NoDup allBytes /\ forall b, In b allBytes.
Proof.
  split; [|split; [|split; [reflexivity|split; [apply (allBytes_all " "%char)|intro b; apply allBytes_all]]]].
  - repeat constructor.
  - assert (H : forall l, (fix nd (l : list ascii) := match l with [] => true | x :: l' => negb (existsb (Ascii.eqb x) l') && nd l' end) l = true -> NoDup l).
    { induction l as [|x l IH]; intro H; constructor; apply andb_true_iff in H as [H1 H2].
      - intro X. apply negb_true_iff in H1. assert (Y : existsb (Ascii.eqb x) l = true) by (apply existsb_exists; exists x; split; [exact X|apply Ascii.eqb_refl]). congruence.
      - apply IH, H2. }
    apply H. reflexivity.
Qed.
