(** * Foreign.v: theorems C88 to C90. *)
From Coq Require Import Floats.SpecFloat.
From Verif Require Import Model.Go Model.Types Model.Decode Model.Cond Spec.DecodeSpec Model.Legacy Model.Gitlab Model.Bitbucket
  Spec.ForeignSpec Proofs.DecodeFacts Proofs.ForeignFacts Conform.LegacyCases Conform.SimpleGlob.

(** ** C88 *)
Theorem C88_constraint : forall n, Distinct n -> forall c, decConstraint n = Some c <-> IsConstraint n c.
Proof. exact exact_constraint. Qed.
Print Assumptions C88_constraint.
Theorem C88_container : forall n, Distinct n -> forall c, decLContainer n = Some c <-> IsLContainer n c.
Proof. exact exact_lcontainer. Qed.
Print Assumptions C88_container.
Theorem C88_file : forall formatFloat formatKey n, StaysDistinct formatFloat n ->
  forall g, decLConfig formatFloat formatKey n = Some g <-> IsLConfig formatFloat formatKey n g.
Proof. exact lconfig_iff. Qed.
Print Assumptions C88_file.
Theorem C88_conversion : forall getenv parseURL isPrintHigh marshal unmarshal ordM ordA formatFloat formatKey read expand print d remote,
  let convert := Convert getenv parseURL isPrintHigh marshal unmarshal ordM ordA formatFloat formatKey read expand print d remote in
  forall text, (forall a b, d <> (a +++ "<<:" +++ b)%string) /\ text = d \/
               (exists a b, d = (a +++ "<<:" +++ b)%string) /\ text = expand d ->
  (read text = None -> convert = Err "yaml") /\
  forall n, read text = Some n -> StaysDistinct formatFloat n ->
    ((forall g, ~ IsLConfig formatFloat formatKey n g) -> convert = Err "yaml") /\
    forall g, IsLConfig formatFloat formatKey n g ->
      match toManifest getenv parseURL isPrintHigh marshal unmarshal ordM ordA n g remote with
      | Ok m => convert = print m
      | Err e => convert = Err e
      | Panic => convert = Panic
      end.
Proof. exact legacy_text. Qed.
Print Assumptions C88_conversion.
(** A nested list in a list of branches drops the whole list, so the constraint is gone. *)
Theorem C88_constraint_kept_refuted : exists n c,
  n = NSeq [NStr "main"; NSeq [NStr "dev"]] /\ decConstraint n = Some c /\ Match simpleGlob c "other" = true.
Proof. eexists _, _. split; [reflexivity|]. split; vm_compute; reflexivity. Qed.
Print Assumptions C88_constraint_kept_refuted.
(** A step of the old format. *)
Definition oldStep : node :=
  NMap [(NStr "image", NStr "golang"); (NStr "pull", NBool "yes" true); (NStr "commands", NStr "make");
        (NStr "environment", NSeq [NStr "A=1"; NStr "junk"; NStr "B=x=y"; NStr "A=2"]);
        (NStr "volumes", NSeq [NStr "/tmp:/data:ro"; NStr "/a:/b"; NStr "/c"; NStr "/d:/e:rw:x"]);
        (NStr "secrets", NSeq [NStr "token"]); (NStr "repo", NStr "octocat/hello"); (NStr "tag", NFloat "1.50" (S754_finite false 3 (-1)));
        (NStr "when", NMap [(NStr "branch", NStr "main"); (NStr "event", NMap [(NStr "exclude", NStr "tag")])])].
Definition oldFile : node :=
  NMap [(NStr "pipeline", NMap [(NStr "build", oldStep)]); (NStr "branches", NSeq [NStr "main"])].
Definition floatText (_ : float64) : string := "1.5".
Definition keyName (_ : node) : string := "?".
Ltac distinct :=
  repeat first [ apply distinct_null | apply distinct_str | apply distinct_bool | apply distinct_int | apply distinct_float
    | apply distinct_seq; let n := fresh in let I := fresh in intros n I; cbn [In] in I;
      repeat (destruct I as [I|I]; [rewrite <- I; clear I; try clear n|]); [..|destruct I]
    | apply distinct_map; [repeat constructor; cbn; intuition discriminate|
      let k := fresh in let v := fresh in let I := fresh in intros k v I; cbn [In] in I;
      repeat (destruct I as [I|I]; [injection I as <- <-; split|]); [..|destruct I]] ].
Lemma oldFile_distinct : StaysDistinct floatText oldFile.
Proof.
  split; [unfold oldFile, oldStep; distinct|].
  intros f k m key v w F Ik I I' R. destruct F as [[E _]|(l & E & F)]; [discriminate|]. injection E as <-.
  inversion F as [|? [k1 n1] ? f1 [T1 E1] F1]; subst. inversion F1 as [|? [k2 n2] ? f2 [T2 E2] F2]; subst.
  inversion F2; subst. cbn in *. subst. destruct I as [I|[I|[]]]; [|discriminate].
  injection I as <- <-. destruct I' as [I'|[]]. injection I' as <- <-.
  apply rewritten_iff in R. subst w. cbn. distinct.
Qed.
Example C88_case : StaysDistinct floatText oldFile /\ exists c g,
  decLConfig floatText keyName oldFile = Some g /\ lg_pipeline g = [c] /\ lc_name c = "build" /\
  c_include (lg_branches g) = ["main"] /\
  lc_pull c = true /\ lc_commands c = ["make"] /\ lc_environment c = [("A", "2"); ("B", "x=y")] /\
  map (option_map (fun v => (lv_source v, lv_dest v, lv_readonly v))) (lc_volumes c) =
    [Some ("/tmp", "/data", true); Some ("/a", "/b", false); Some ("", "", false); Some ("/d", "/e", false)] /\
  lc_secrets c = [Some {| ls_source := "token"; ls_target := "token" |}] /\
  lc_vargs c = [("repo", VStr "octocat/hello"); ("tag", VFloat (S754_finite false 3 (-1)))] /\
  c_include (lw_branch (lc_constraints c)) = ["main"] /\ c_exclude (lw_event (lc_constraints c)) = ["tag"].
Proof.
  split; [exact oldFile_distinct|]. eexists _, _. split; [vm_compute; reflexivity|]. split; [reflexivity|].
  repeat match goal with |- _ /\ _ => split; [vm_compute; reflexivity|] end. vm_compute; reflexivity.
Qed.

(** ** C89 *)
Theorem C89_file : forall n, Distinct n -> forall g, decGConfig n = Some g <-> IsGConfig n g.
Proof. exact exact_gconfig. Qed.
Print Assumptions C89_file.
Theorem C89_conversion : forall available ord read print b,
  let convert := gitlabConvert available ord read print b in
  (read b = None -> convert = Err "yaml") /\
  forall n, read b = Some n -> Distinct n ->
    ((forall g, ~ IsGConfig n g) -> convert = Err "yaml") /\
    forall g, IsGConfig n g ->
      match gitlabManifest available ord g with
      | Ok m => convert = print m
      | Err e => convert = Err e
      | Panic => convert = Panic
      end.
Proof. exact gitlab_text. Qed.
Print Assumptions C89_conversion.
Definition gitlabFile : node :=
  NMap [(NStr "image", NMap [(NStr "name", NStr "golang"); (NStr "entrypoint", NStr "/bin/sh")]);
        (NStr "services", NSeq [NStr "redis"; NMap [(NStr "name", NStr "postgres"); (NStr "alias", NStr "db")]; NNull]);
        (NStr "before_script", NStr "setup"); (NStr "stages", NSeq [NStr "build"]);
        (NStr "make", NMap [(NStr "stage", NStr "build"); (NStr "script", NSeq [NStr "a"; NInt "1" 1]);
                            (NStr "allowfailure", NBool "on" true)]);
        (NStr "cache", NNull)].
Example C89_case : Distinct gitlabFile /\ exists g j,
  decGConfig gitlabFile = Some g /\ gi_name (gc_image g) = "golang" /\ gi_entrypoint (gc_image g) = ["/bin/sh"] /\
  map (option_map (fun i => (gi_name i, gi_alias i))) (gc_services g) = [Some ("redis", ""); Some ("postgres", "db"); None] /\
  gc_before g = ["setup"] /\ gc_jobs g = [("make", Some j); ("cache", None)] /\
  gj_script j = ["a"; "1"] /\ gj_allow_failure j = true.
Proof.
  split; [unfold gitlabFile; distinct|]. eexists _, _. split; [vm_compute; reflexivity|].
  repeat match goal with |- _ /\ _ => split; [vm_compute; reflexivity|] end. vm_compute; reflexivity.
Qed.

(** ** C90 *)
Theorem C90_file : forall n, Distinct n -> forall c, decBConfig n = Some c <-> IsBConfig n c.
Proof. exact exact_bconfig. Qed.
Print Assumptions C90_file.
Theorem C90_conversion : forall pathMatch ordT ordB ordS read print b ref,
  let convert := bitbucketConvert pathMatch ordT ordB ordS read print b ref in
  (read b = None -> convert = Err "yaml") /\
  forall n, read b = Some n -> Distinct n ->
    ((forall g, ~ IsBConfig n g) -> convert = Err "yaml") /\
    forall g, IsBConfig n g ->
      match bitbucketManifest pathMatch ordT ordB ordS g ref with
      | Ok m => convert = print m
      | Err e => convert = Err e
      | Panic => convert = Panic
      end.
Proof. exact bitbucket_text. Qed.
Print Assumptions C90_conversion.
Definition bitbucketFile : node :=
  NMap [(NStr "image", NStr "golang"); (NStr "clone", NMap [(NStr "depth", NInt "5" 5)]);
        (NStr "pipelines", NMap
          [(NStr "default", NSeq [NMap [(NStr "step", NMap [(NStr "name", NStr "build"); (NStr "script", NSeq [NStr "make"])])];
                                  NMap [(NStr "parallel", NSeq [])]]);
           (NStr "branches", NMap [(NStr "release/*", NSeq [NMap [(NStr "step", NMap [(NStr "script", NSeq [NStr "ship"])])]])])]);
        (NStr "definitions", NMap [(NStr "services", NMap [(NStr "db", NMap [(NStr "image", NStr "postgres")])])])].
Example C90_case : Distinct bitbucketFile /\ exists c,
  decBConfig bitbucketFile = Some c /\ bc_image c = "golang" /\ bc_depth c = 5%Z /\
  map (option_map (fun s => (bs_name s, bs_script s))) (bc_default c) = [Some ("build", ["make"]); None] /\
  map (fun kv => (fst kv, map (option_map bs_script) (snd kv))) (bc_branches c) = [("release/*", [Some ["ship"]])] /\
  map (fun kv => (fst kv, option_map bs_image (snd kv))) (bc_services c) = [("db", Some "postgres")].
Proof.
  split; [unfold bitbucketFile; distinct|]. eexists. split; [vm_compute; reflexivity|].
  repeat match goal with |- _ /\ _ => split; [vm_compute; reflexivity|] end. vm_compute; reflexivity.
Qed.
