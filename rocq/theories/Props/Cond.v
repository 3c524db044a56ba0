(** * Cond.v: theorems C12 to C15. *)
From Verif Require Import Model.Go Model.Types Model.Cond Spec.CondSpec Conform.SimpleGlob Proofs.CondFacts.

(** ** C12 *)
Theorem C12_match_iff : forall glob c v, Match glob c v = true <-> Accepts glob c v.
Proof. exact Match_spec. Qed.
Print Assumptions C12_match_iff.

Theorem C12_exclude_wins : forall glob c v, Hits glob (c_exclude c) v -> Match glob c v = false.
Proof. exact Match_exclude_wins. Qed.
Print Assumptions C12_exclude_wins.

Theorem C12_order_and_repetition : forall glob c d v,
  (forall p, In p (c_include c) <-> In p (c_include d)) ->
  (forall p, In p (c_exclude c) <-> In p (c_exclude d)) -> Match glob c v = Match glob d v.
Proof. exact Match_same_patterns. Qed.
Print Assumptions C12_order_and_repetition.

Theorem C12_malformed_pattern : forall glob c v p,
  glob p v = None ->
  Match glob {| c_include := c_include c; c_exclude := p :: c_exclude c |} v = Match glob c v /\
  (c_include c <> [] ->
   Match glob {| c_include := p :: c_include c; c_exclude := c_exclude c |} v = Match glob c v).
Proof. exact Match_bad_pattern. Qed.
Print Assumptions C12_malformed_pattern.

Definition mainNotDev : Condition := {| c_include := ["["; "main"; "dev"]; c_exclude := ["dev"; "["] |}.
Example C12_case :
  Accepts simpleGlob mainNotDev "main" /\ ~ Accepts simpleGlob mainNotDev "dev" /\
  ~ Accepts simpleGlob mainNotDev "other" /\ simpleGlob "[" "main" = None /\
  map (Match simpleGlob mainNotDev) ["main"; "dev"; "other"] = [true; false; false].
Proof.
  split; [|split; [|split]].
  - split; [|right; exists "main"; simpl; auto].
    intros (p & [<-|[<-|[]]] & H); discriminate.
  - intros [H _]. apply H. exists "dev". simpl. auto.
  - intros [_ [H|(p & [<-|[<-|[<-|[]]]] & H)]]; discriminate.
  - split; reflexivity.
Qed.
Example C12_case_same :
  (forall p, In p ["a"; "b"; "a"] <-> In p ["b"; "a"]) /\
  Match simpleGlob {| c_include := ["a"; "b"; "a"]; c_exclude := [] |} "b" = true.
Proof. split; [intro p; simpl; tauto|reflexivity]. Qed.

(** ** C13 *)
Theorem C13_more_excludes : forall glob c v ex,
  Match glob {| c_include := c_include c; c_exclude := c_exclude c ++ ex |} v = true -> Match glob c v = true.
Proof. exact Match_more_excludes. Qed.
Print Assumptions C13_more_excludes.

Theorem C13_more_includes : forall glob c v inc,
  c_include c <> [] -> Match glob c v = true ->
  Match glob {| c_include := c_include c ++ inc; c_exclude := c_exclude c |} v = true.
Proof. exact Match_more_includes. Qed.
Print Assumptions C13_more_includes.

Theorem C13_first_include_refuted : exists glob c v inc,
  Match glob c v = true /\
  Match glob {| c_include := c_include c ++ inc; c_exclude := c_exclude c |} v = false.
Proof. exists simpleGlob, noCond, "dev", ["main"]. split; reflexivity. Qed.
Print Assumptions C13_first_include_refuted.

Example C13_case :
  Match simpleGlob {| c_include := ["main"]; c_exclude := ["dev"] ++ ["x"] |} "main" = true /\
  Match simpleGlob {| c_include := ["main"] ++ ["dev"]; c_exclude := ["dev"] |} "main" = true /\
  Match simpleGlob {| c_include := ["main"]; c_exclude := ["dev"] ++ ["main"] |} "main" = false.
Proof. repeat split. Qed.

(** ** C14 *)
Theorem C14_skip_iff : forall glob data c,
  SkipFunc glob data c = true <->
  ~ (Accepts glob (w_branch (ct_when c)) (sk_branch data) /\ Accepts glob (w_cron (ct_when c)) (sk_cron data) /\
     Accepts glob (w_event (ct_when c)) (sk_event data) /\ Accepts glob (w_instance (ct_when c)) (sk_instance data) /\
     Accepts glob (w_ref (ct_when c)) (sk_ref data) /\ Accepts glob (w_repo (ct_when c)) (sk_repo data) /\
     Accepts glob (w_target (ct_when c)) (sk_target data) /\ Accepts glob (w_action (ct_when c)) (sk_action data)).
Proof. exact SkipFunc_spec. Qed.
Print Assumptions C14_skip_iff.

Definition someData : SkipData :=
  {| sk_branch := "main"; sk_cron := "nightly"; sk_event := "push"; sk_instance := "drone.example";
     sk_ref := "refs/heads/main"; sk_repo := "octo/hello"; sk_target := "prod"; sk_action := "opened" |}.
Definition only (s : string) : Condition := {| c_include := [s]; c_exclude := [] |}.
Definition whenAll (branch : string) : Container :=
  {| ct_build := None; ct_command := []; ct_commands := []; ct_detach := false;
     ct_depends := []; ct_devices := []; ct_dns := []; ct_dns_search := [];
     ct_entrypoint := []; ct_environment := []; ct_extra_hosts := []; ct_failure := "";
     ct_image := "alpine"; ct_network := ""; ct_name := "test"; ct_ports := []; ct_privileged := false;
     ct_pull := ""; ct_push := None; ct_resources := None; ct_settings := []; ct_shell := "";
     ct_user := ""; ct_volumes := [];
     ct_when := {| w_action := only "opened"; w_cron := only "nightly"; w_ref := only "refs/heads/main";
                   w_repo := only "octo/hello"; w_instance := only "drone.example"; w_target := only "prod";
                   w_event := only "push"; w_branch := only branch; w_status := only "failure";
                   w_paths := only "none"; w_matrix := [("os", "bsd")] |};
     ct_working_dir := "" |}.
Example C14_case :
  SkipFunc simpleGlob someData (whenAll "main") = false /\ SkipFunc simpleGlob someData (whenAll "dev") = true.
Proof. split; reflexivity. Qed.

(** ** C15 *)
Theorem C15_run_policy : forall glob c,
  (runsOnSuccess (toRunPolicy glob c) = true <-> Accepts glob (w_status (ct_when c)) "success") /\
  (runsOnFailure (toRunPolicy glob c) = true <->
     c_include (w_status (ct_when c)) <> [] /\ Accepts glob (w_status (ct_when c)) "failure").
Proof. exact toRunPolicy_spec. Qed.
Print Assumptions C15_run_policy.

Theorem C15_policy_determined : forall p q,
  runsOnSuccess p = runsOnSuccess q -> runsOnFailure p = runsOnFailure q -> p = q.
Proof. exact runPolicy_determined. Qed.
Print Assumptions C15_policy_determined.

Theorem C15_no_condition : forall glob c, w_status (ct_when c) = noCond -> toRunPolicy glob c = RunOnSuccess.
Proof. exact toRunPolicy_default. Qed.
Print Assumptions C15_no_condition.

Theorem C15_excluding_success_never_runs : forall glob c,
  c_include (w_status (ct_when c)) = [] -> Hits glob (c_exclude (w_status (ct_when c))) "success" ->
  toRunPolicy glob c = RunNever.
Proof. exact toRunPolicy_exclude_success. Qed.
Print Assumptions C15_excluding_success_never_runs.

Definition status (inc exc : list string) : Container :=
  {| ct_build := None; ct_command := []; ct_commands := []; ct_detach := false;
     ct_depends := []; ct_devices := []; ct_dns := []; ct_dns_search := [];
     ct_entrypoint := []; ct_environment := []; ct_extra_hosts := []; ct_failure := "";
     ct_image := "alpine"; ct_network := ""; ct_name := "test"; ct_ports := []; ct_privileged := false;
     ct_pull := ""; ct_push := None; ct_resources := None; ct_settings := []; ct_shell := "";
     ct_user := ""; ct_volumes := [];
     ct_when := {| w_action := noCond; w_cron := noCond; w_ref := noCond; w_repo := noCond;
                   w_instance := noCond; w_target := noCond; w_event := noCond; w_branch := noCond;
                   w_status := {| c_include := inc; c_exclude := exc |}; w_paths := noCond; w_matrix := [] |};
     ct_working_dir := "" |}.
Example C15_case :
  toRunPolicy simpleGlob (status [] []) = RunOnSuccess /\
  toRunPolicy simpleGlob (status ["failure"] []) = RunOnFailure /\
  toRunPolicy simpleGlob (status ["*"] []) = RunAlways /\
  toRunPolicy simpleGlob (status [] ["success"]) = RunNever /\
  Hits simpleGlob ["success"] "success".
Proof. repeat split. exists "success". simpl. auto. Qed.
