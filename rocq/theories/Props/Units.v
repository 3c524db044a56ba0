(** * Units.v: C96 and C97, sizes with a unit. *)
From Coq Require Import ZArith.
From Verif Require Import Model.Go Model.Types Model.Decode Model.RawParse Model.Units Spec.UnitsSpec Spec.PrettySpec.
From Verif Require Import Proofs.PrettyMore Proofs.UnitsFacts Proofs.UnitsPrint Proofs.UnitsTrip Proofs.UnitsClaims.
Open Scope Z_scope.

(** ** C96 *)
Theorem C96_sizes : forall s z, ramInBytes s = Some z <-> IsSize s z.
Proof. exact sizes. Qed.
Print Assumptions C96_sizes.
Theorem C96_whole : forall n space unit k i b, 0 <= n < 2 ^ 53 -> n * 1024 ^ k < 2 ^ 63 ->
  In space [""; " "] -> In (unit, k) unitTable -> In i [""; "i"; "I"] -> In b [""; "b"; "B"] ->
  ramInBytes (itoa n +++ space +++ unit +++ i +++ b)%string = Some (n * 1024 ^ k).
Proof. exact whole_size. Qed.
Print Assumptions C96_whole.
(** A limit that is too large becomes negative. *)
Theorem C96_large_refuted : exists s z, IsSize s z /\ s = "8192P" /\ z = - 2 ^ 63.
Proof. exists "8192P", (- 2 ^ 63). split; [apply sizes; vm_compute; reflexivity|split; reflexivity]. Qed.
Print Assumptions C96_large_refuted.
Example C96_case : ramInBytes "1.5 GiB" = Some 1610612736 /\ ramInBytes "100Mi" = Some 104857600 /\ ramInBytes "0.0001k" = Some 0 /\ ramInBytes "1.2.3" = None /\
  ramInBytes "1e3" = None /\ ramInBytes "9007199254740993" = Some 9007199254740992 /\ ramInBytes "1.022KiB" = Some 1046.
Proof. repeat (split; [vm_compute; reflexivity|]). vm_compute. reflexivity. Qed.

(** ** C97 *)
Theorem C97_text : forall z t, - 2 ^ 63 <= z < 2 ^ 63 -> bytesSize z = t <-> PrintedSize z t.
Proof. exact size_text. Qed.
Print Assumptions C97_text.
Theorem C97_multiples : forall m i u, 1 <= m < 1024 -> (i <= 5)%nat -> nth_error sizeUnits i = Some u ->
  bytesSize (m * 1024 ^ Z.of_nat i) = (itoa m +++ u)%string.
Proof. exact multiple_text. Qed.
Print Assumptions C97_multiples.
Theorem C97_multiples_read_back : forall m i, 0 <= m < 1024 -> (i <= 5)%nat ->
  ramInBytes (bytesSize (m * 1024 ^ Z.of_nat i)) = Some (m * 1024 ^ Z.of_nat i).
Proof. exact multiple_back. Qed.
Print Assumptions C97_multiples_read_back.
Theorem C97_formattable : forall resolve m i, 0 <= m < 1024 -> (i <= 5)%nat ->
  let t := bytesSize (m * 1024 ^ Z.of_nat i) in resolve t = NStr t -> SizeOk resolve ramInBytes bytesSize (m * 1024 ^ Z.of_nat i).
Proof. exact multiple_ok. Qed.
Print Assumptions C97_formattable.
Theorem C97_close : forall z, 0 <= z < 2 ^ 60 - 64 -> exists z', ramInBytes (bytesSize z) = Some z' /\ 1999 * Z.abs (z' - z) <= z + 1999.
Proof. exact close. Qed.
Print Assumptions C97_close.
Theorem C97_readable : forall z, - 2 ^ 63 <= z < 2 ^ 63 -> (exists z', ramInBytes (bytesSize z) = Some z') <-> 0 <= z < 2 ^ 60 - 64.
Proof. exact readable. Qed.
Print Assumptions C97_readable.
Theorem C97_format_keeps_refuted : exists m out m' out' m'', sizePrint m = Ok out /\ parse sizeDecoder out = Ok m' /\
  sizePrint m' = Ok out' /\ parse sizeDecoder out' = Ok m'' /\
  memoryLimits m = [1066] /\ memoryLimits m' = [1065] /\ memoryLimits m'' = [1064].
Proof. exact memory_shrinks. Qed.
Print Assumptions C97_format_keeps_refuted.
Theorem C97_format_parses_refuted : exists m out e, sizePrint m = Ok out /\ memoryLimits m = [2 ^ 60] /\ parse sizeDecoder out = Err e.
Proof. exact memory_lost. Qed.
Print Assumptions C97_format_parses_refuted.
Example C97_case : bytesSize 1066 = "1.041KiB" /\ bytesSize 1234567 = "1.177MiB" /\ bytesSize 1048575 = "1024KiB" /\ bytesSize 104857600 = "100MiB" /\
  bytesSize (-123456) = "-1.235e+05B" /\ SizeOk plainResolve ramInBytes bytesSize (512 * 1024 ^ 2).
Proof. repeat (split; [vm_compute; reflexivity|]). apply (C97_formattable plainResolve 512 2); [split; reflexivity||discriminate|repeat constructor|vm_compute; reflexivity]. Qed.
