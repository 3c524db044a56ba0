(** * RuleSpec.v: the linter as an ordered list of rules, of which the first that applies decides. *)
From Verif Require Import Model.Go Model.Types Spec.LintSpec.
Local Open Scope list_scope.

(** What happens when a rule applies: the resource is refused with a message, or the program crashes. *)
Inductive Verdict : Type :=
| Says (message : string)
| Crash.
Definition Rule : Type := (Prop * Verdict)%type.
(** The first rule that applies has this verdict. *)
Definition First (l : list Rule) (v : Verdict) : Prop :=
  exists before (P : Prop) after, l = before ++ (P, v) :: after /\ P /\ Forall (fun r => ~ fst r) before.
Definition NoneApplies (l : list Rule) : Prop := Forall (fun r => ~ fst r) l.

Definition volumeRules (trusted : bool) (o : option Volume) : list Rule :=
  match o with
  | None => [(True, Crash)]
  | Some v =>
      [(trusted = false /\ exists e, vo_empty v = Some e /\ ve_medium e = "memory", Says "linter: untrusted repositories cannot mount in-memory volumes");
       (trusted = false /\ vo_host v <> None, Says "linter: untrusted repositories cannot mount host volumes");
       (Reserved (vo_name v), Says ("linter: invalid volume name: " +++ vo_name v)%string)]
  end.
Definition platformRules (p : Platform) : list Rule :=
  [(~ In (pl_os p) [""; "linux"; "windows"], Says ("linter: unsupported os: " +++ pl_os p)%string);
   (~ In (pl_arch p) [""; "arm"; "arm64"; "amd64"; "ppc64le"; "s390x"], Says ("linter: unsupported architecture: " +++ pl_arch p)%string)].
Definition portRules (trusted : bool) (o : option Port) : list Rule :=
  match o with
  | None => [(trusted = false, Crash)]
  | Some p => [(trusted = false /\ po_host p <> 0%Z, Says "linter: untrusted repositories cannot map to a host port")]
  end.
Definition mountRules (o : option VolumeMount) : list Rule :=
  match o with
  | None => [(True, Crash)]
  | Some m => [(Reserved (vm_name m), Says ("linter: invalid volume name: " +++ vm_name m)%string)]
  end.
Definition containerRules (trusted : bool) (c : Container) : list Rule :=
  flat_map (portRules trusted) (ct_ports c) ++
  [(ct_build c = None /\ ct_image c = "", Says "linter: invalid or missing image");
   (exists b, ct_build c = Some b /\ b_image b = "", Says "linter: invalid or missing build image");
   (ct_name c = "", Says "linter: invalid or missing name");
   (trusted = false /\ ct_privileged c = true, Says "linter: untrusted repositories cannot enable privileged mode");
   (trusted = false /\ ct_devices c <> [], Says "linter: untrusted repositories cannot mount devices");
   (trusted = false /\ ct_dns c <> [], Says "linter: untrusted repositories cannot configure dns");
   (trusted = false /\ ct_dns_search c <> [], Says "linter: untrusted repositories cannot configure dns_search");
   (trusted = false /\ ct_extra_hosts c <> [], Says "linter: untrusted repositories cannot configure extra_hosts");
   (trusted = false /\ ct_network c <> "", Says "linter: untrusted repositories cannot configure network_mode")] ++
  flat_map mountRules (ct_volumes c).
(** [own] waits for [d], and the names in [seen] come before it. *)
Definition waitRules (missing self own : string) (seen : list string) (d : string) : list Rule :=
  [(d <> own /\ ~ In d seen, Says missing); (d = own, Says self)].

(** Steps and services, one after the other; [seen] are the names before them. *)
Fixpoint stepRules (trusted : bool) (seen : list string) (l : list (option Container)) : list Rule :=
  match l with
  | [] => []
  | None :: _ => [(True, Crash)]
  | Some c :: l' =>
      (In (ct_name c) seen, Says "linter: duplicate step names") :: containerRules trusted c ++
      flat_map (waitRules "linter: invalid or unknown step dependency" "linter: cyclical step dependency detected" (ct_name c) seen)
        (ct_depends c) ++
      stepRules trusted (seen ++ [ct_name c]) l'
  end.
Fixpoint serviceRules (trusted : bool) (seen : list string) (l : list (option Container)) : list Rule :=
  match l with
  | [] => []
  | None :: _ => [(True, Crash)]
  | Some c :: l' =>
      (In (ct_name c) seen, Says "linter: duplicate step names") :: containerRules trusted c ++
      serviceRules trusted (seen ++ [ct_name c]) l'
  end.
Definition namesOf (l : list (option Container)) : list string :=
  flat_map (fun o => match o with Some c => [ct_name c] | None => [] end) l.
Definition rules (trusted : bool) (r : Resource) : list Rule :=
  match r with
  | RCron c => [(cr_branch c = "", Says "yaml: invalid cron branch")]
  | RSecret s => [(se_data s = "" /\ se_get_path s = "" /\ se_get_name s = "", Says "yaml: invalid secret resource")]
  | RSignature s => [(si_hmac s = "", Says "yaml: invalid signature. missing hash")]
  | RRegistry g => [(rg_data g = [], Says "yaml: invalid registry resource")]
  | RPipeline p =>
      flat_map (volumeRules trusted) (pi_volumes p) ++ platformRules (pi_platform p) ++
      stepRules trusted (cloneNames p) (pi_steps p) ++
      serviceRules trusted (cloneNames p ++ namesOf (pi_steps p)) (pi_services p)
  end.

(** The rules for the pipelines of a file taken together. *)
Fixpoint manifestRules (seen : list string) (l : list Resource) : list Rule :=
  match l with
  | [] => []
  | RPipeline p :: l' =>
      (In (pi_name p) seen, Says "linter: duplicate pipeline names") ::
      flat_map (waitRules "linter: invalid or unknown pipeline dependency" "linter: pipeline cannot have a dependency on itself" (pi_name p) seen)
        (pi_depends p) ++
      map (fun r => (DockerPipeline p /\ fst r, snd r)) (platformRules (pi_platform p)) ++
      manifestRules (seen ++ [pi_name p]) l'
  | _ :: l' => manifestRules seen l'
  end.
