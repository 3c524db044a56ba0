(** * Sha256.v: crypto/sha256 and crypto/hmac (used at yaml/signer/signer.go 121-127).

    Written from FIPS 180-4 and RFC 2104. The theorems about the signer hold for every MAC
    function; this one is used for witnesses and for the repository's test vector. *)
From Verif Require Import Model.Go.
Open Scope N_scope.

Definition w32 : N := 4294967296.
Definition add32 (a b : N) : N := (a + b) mod w32.
Definition not32 (a : N) : N := w32 - 1 - a.
Definition rotr (k a : N) : N := N.lor (N.shiftr a k) (N.shiftl a (32 - k) mod w32).
Definition ch (x y z : N) : N := N.lxor (N.land x y) (N.land (not32 x) z).
Definition maj (x y z : N) : N := N.lxor (N.lxor (N.land x y) (N.land x z)) (N.land y z).
Definition bsig0 (x : N) : N := N.lxor (N.lxor (rotr 2 x) (rotr 13 x)) (rotr 22 x).
Definition bsig1 (x : N) : N := N.lxor (N.lxor (rotr 6 x) (rotr 11 x)) (rotr 25 x).
Definition ssig0 (x : N) : N := N.lxor (N.lxor (rotr 7 x) (rotr 18 x)) (N.shiftr x 3).
Definition ssig1 (x : N) : N := N.lxor (N.lxor (rotr 17 x) (rotr 19 x)) (N.shiftr x 10).

Definition K256 : list N :=
  [ 1116352408; 1899447441; 3049323471; 3921009573; 961987163; 1508970993;
    2453635748; 2870763221; 3624381080; 310598401; 607225278; 1426881987;
    1925078388; 2162078206; 2614888103; 3248222580; 3835390401; 4022224774;
    264347078; 604807628; 770255983; 1249150122; 1555081692; 1996064986;
    2554220882; 2821834349; 2952996808; 3210313671; 3336571891; 3584528711;
    113926993; 338241895; 666307205; 773529912; 1294757372; 1396182291;
    1695183700; 1986661051; 2177026350; 2456956037; 2730485921; 2820302411;
    3259730800; 3345764771; 3516065817; 3600352804; 4094571909; 275423344;
    430227734; 506948616; 659060556; 883997877; 958139571; 1322822218;
    1537002063; 1747873779; 1955562222; 2024104815; 2227730452; 2361852424;
    2428436474; 2756734187; 3204031479; 3329325298 ].
Definition H256 : list N :=
  [ 1779033703; 3144134277; 1013904242; 2773480762; 1359893119; 2600822924;
    528734635; 1541459225 ].

(** The next word of the message schedule from the last sixteen, oldest first. *)
Definition next_word (w : list N) : N :=
  add32 (add32 (ssig1 (nth 14 w 0)) (nth 9 w 0)) (add32 (ssig0 (nth 1 w 0)) (nth 0 w 0)).

Definition round (st : list N) (k w : N) : list N :=
  match st with
  | [a; b; c; d; e; f; g; h] =>
      let t1 := add32 (add32 (add32 h (bsig1 e)) (add32 (ch e f g) k)) w in
      let t2 := add32 (bsig0 a) (maj a b c) in
      [add32 t1 t2; a; b; c; add32 d t1; e; f; g]
  | _ => st
  end.
(** One round per constant; [w] is the sliding window of sixteen schedule words. *)
Fixpoint rounds (ks : list N) (w : list N) (st : list N) : list N :=
  match ks with
  | [] => st
  | k :: ks' => rounds ks' (tl w ++ [next_word w]) (round st k (nth 0 w 0))
  end.
Definition compress (st block : list N) : list N :=
  map (fun p => add32 (fst p) (snd p)) (combine st (rounds K256 block st)).

Fixpoint words (l : list N) : list N :=
  match l with
  | a :: b :: c :: d :: l' => (16777216 * a + 65536 * b + 256 * c + d) :: words l'
  | _ => []
  end.
Fixpoint blocks (fuel : nat) (ws st : list N) : list N :=
  match fuel with
  | O => st
  | S fuel' => match ws with [] => st | _ => blocks fuel' (skipn 16 ws) (compress st (firstn 16 ws)) end
  end.
Definition be_bytes (n : nat) (x : N) : list N :=
  map (fun i => (x / 256 ^ N.of_nat (n - 1 - i)) mod 256) (seq 0 n).
Definition pad (l : list N) : list N :=
  let len := N.of_nat (List.length l) in
  l ++ [128] ++ repeat 0 (N.to_nat ((55 + 64 - len mod 64) mod 64)) ++ be_bytes 8 (8 * len).
Definition sha256_bytes (l : list N) : list N :=
  let ws := words (pad l) in
  flat_map (be_bytes 4) (blocks (List.length ws) ws H256).

Definition bytes_of (s : string) : list N := map code (list_ascii_of_string s).
Definition string_of (l : list N) : string := string_of_list_ascii (map byte l).
Definition sha256 (s : string) : string := string_of (sha256_bytes (bytes_of s)).

(** RFC 2104 with SHA-256 (block size 64). *)
Definition hmac_sha256 (key msg : string) : string :=
  let k0 := bytes_of key in
  let k1 := if Nat.ltb 64 (List.length k0) then sha256_bytes k0 else k0 in
  let k := k1 ++ repeat 0 (64 - List.length k1) in
  let inner := sha256_bytes (map (N.lxor 54) k ++ bytes_of msg) in
  string_of (sha256_bytes (map (N.lxor 92) k ++ inner)).
