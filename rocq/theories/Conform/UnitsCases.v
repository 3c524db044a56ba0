(** * UnitsCases.v: the table of yaml/unit_test.go. *)
From Coq Require Import ZArith.
From Verif Require Import Model.Go Model.Decode Model.Units Proofs.PrettyMore.
Definition sizeOf (text : string) : option Z := decSize ramInBytes (plainResolve text).
Example kibibyte : sizeOf "1KiB" = Some 1024%Z /\ bytesSize 1024 = "1KiB". Proof. split; vm_compute; reflexivity. Qed.
Example hundred : sizeOf "100Mi" = Some 104857600%Z /\ bytesSize 104857600 = "100MiB". Proof. split; vm_compute; reflexivity. Qed.
Example plain : sizeOf "1024" = Some 1024%Z. Proof. vm_compute; reflexivity. Qed.
