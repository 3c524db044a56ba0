(** * ShaFacts.v: HMAC-SHA256 has 32 bytes. *)
From Coq Require Import Lia.
From Verif Require Import Model.Go Model.RawParse Model.Sha256 Spec.SignSpec.

Lemma round_length st k w : length (round st k w) = length st.
Proof. do 9 (destruct st as [|? st]; [reflexivity|]). reflexivity. Qed.
Lemma rounds_length ks : forall w st, length (rounds ks w st) = length st.
Proof. induction ks as [|k ks IH]; intros w st; [reflexivity|]. cbn [rounds]. rewrite IH. apply round_length. Qed.
Lemma compress_length st b : length (compress st b) = length st.
Proof. unfold compress. rewrite map_length, combine_length, rounds_length. lia. Qed.
Lemma blocks_length fuel : forall ws st, length (blocks fuel ws st) = length st.
Proof.
  induction fuel as [|fuel IH]; intros ws st; [reflexivity|]. cbn [blocks]. destruct ws; [reflexivity|].
  rewrite IH. apply compress_length.
Qed.
Lemma sha256_length l : length (sha256_bytes l) = 32%nat.
Proof.
  unfold sha256_bytes. pose proof (blocks_length (length (words (pad l))) (words (pad l)) H256) as H.
  change (length H256) with 8%nat in H. revert H. generalize (blocks (length (words (pad l))) (words (pad l)) H256).
  intros st H. do 9 (destruct st as [|? st]; try discriminate H). reflexivity.
Qed.
Lemma string_of_slen l : slen (string_of l) = N.of_nat (length l).
Proof. unfold slen, string_of. induction l as [|x l IH]; [reflexivity|]. cbn [map string_of_list_ascii String.length length]. lia. Qed.
Lemma hmac_sha256_32 : Mac32 hmac_sha256.
Proof. intros k m. unfold hmac_sha256. rewrite string_of_slen, sha256_length. reflexivity. Qed.
