(** * JsonPanic.v: writing a manifest as JSON never panics. *)
From Coq Require Import Floats.SpecFloat.
From Verif Require Import Model.Go Model.Types Model.Json Proofs.JsonWrite.

Definition Safe {A} (o : outcome A) : Prop := o <> Panic.
Lemma safe_ok {A} (a : A) : Safe (Ok a). Proof. discriminate. Qed.
Lemma safe_err {A} e : Safe (@Err A e). Proof. discriminate. Qed.
Lemma safe_bind {A B} (o : outcome A) (f : A -> outcome B) : Safe o -> (forall a, Safe (f a)) -> Safe (obind o f).
Proof. intros H G. destruct o as [a|e|]; cbn; [apply G|discriminate|contradiction (H eq_refl)]. Qed.
Lemma safe_each {A B} (f : A -> outcome B) l : (forall a, In a l -> Safe (f a)) -> Safe (each f l).
Proof.
  induction l as [|a l IH]; intro H; [discriminate|]. cbn. pose proof (H a (or_introl eq_refl)) as Ha.
  destruct (f a) as [b|e|]; [|discriminate|contradiction (Ha eq_refl)]. fold (each f) in *.
  specialize (IH (fun x I => H x (or_intror I))). destruct (each f l); [discriminate|discriminate|contradiction (IH eq_refl)].
Qed.
Section Numbers.
  Variable formatFloat : float64 -> string.
  Lemma safe_float f : Safe (marshalFloat formatFloat f). Proof. destruct f; discriminate. Qed.
  Lemma safe_value v : Safe (marshalValue formatFloat v).
  Proof.
    induction v as [|b|z|f|s|l IH|m] using value_ind'; cbn [marshalValue]; try discriminate; [apply safe_float|].
    apply safe_bind; [|intro; apply safe_ok]. apply safe_each. exact IH.
  Qed.
  Lemma safe_ptr {A} (enc : A -> outcome json) k o : (forall a, Safe (enc a)) -> Safe (marshalPtr enc k o).
  Proof. intro H. destruct o; [|discriminate]. apply safe_bind; [apply H|intro; apply safe_ok]. Qed.
  Lemma safe_nullable {A} (enc : A -> outcome json) o : (forall a, Safe (enc a)) -> Safe (marshalNullable enc o).
  Proof. intro H. destruct o; [apply H|discriminate]. Qed.
  Lemma safe_parameter p : Safe (marshalParameter formatFloat p).
  Proof.
    unfold marshalParameter. apply safe_bind; [|intro; apply safe_ok].
    destruct (p_value p) as [|b|z|f|s|l|m] eqn:E; try discriminate; rewrite <- E; (apply safe_bind; [apply safe_value|intro; apply safe_ok]).
  Qed.
  Lemma safe_object r : Safe (marshalResourceObject formatFloat r).
  Proof. apply safe_bind; [apply safe_float|intro; apply safe_ok]. Qed.
  Lemma safe_resources r : Safe (marshalResources formatFloat r).
  Proof.
    apply safe_bind; [apply safe_ptr, safe_object|]. intro. apply safe_bind; [apply safe_ptr, safe_object|intro; apply safe_ok].
  Qed.
  Lemma safe_settings m : Safe (marshalSettings formatFloat m).
  Proof.
    unfold marshalSettings. destruct m as [|e m]; [discriminate|]. apply safe_bind; [|intro; apply safe_ok].
    apply safe_each. intros k _. destruct (mget k _); [|discriminate]. apply safe_bind; [apply safe_nullable, safe_parameter|intro; apply safe_ok].
  Qed.
  Lemma safe_container c : Safe (marshalContainer formatFloat c).
  Proof.
    apply safe_bind; [apply safe_ptr, safe_resources|]. intro. apply safe_bind; [apply safe_settings|intro; apply safe_ok].
  Qed.
  Lemma safe_containers k l : Safe (marshalContainers formatFloat k l).
  Proof.
    unfold marshalContainers. destruct l as [|c l]; [discriminate|]. apply safe_bind; [|intro; apply safe_ok].
    apply safe_each. intros a _. apply safe_nullable, safe_container.
  Qed.
  Lemma safe_pipeline p : Safe (marshalPipeline formatFloat p).
  Proof.
    apply safe_bind; [apply safe_containers|]. intro. apply safe_bind; [apply safe_containers|intro; apply safe_ok].
  Qed.
  Lemma safe_resource r : Safe (marshalResource formatFloat r).
  Proof. destruct r; try discriminate. apply safe_pipeline. Qed.
  Lemma marshal_safe : forall m, (exists j, marshalJSON formatFloat m = Ok j) \/ (exists e, marshalJSON formatFloat m = Err e).
  Proof.
    intro m. assert (H : Safe (marshalJSON formatFloat m)).
    { unfold marshalJSON. destruct (mf_resources m); [discriminate|]. apply safe_bind; [|intro; apply safe_ok].
      apply safe_each. intros a _. apply safe_resource. }
    destruct (marshalJSON formatFloat m); [left; eauto|right; eauto|contradiction (H eq_refl)].
  Qed.
End Numbers.
