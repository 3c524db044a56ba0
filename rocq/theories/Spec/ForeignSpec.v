(** * ForeignSpec.v: what a yaml tree means as a 0.8, GitLab or Bitbucket configuration. *)
From Coq Require Import Ascii.
From Verif Require Import Model.Go Model.Types Model.Decode Spec.DecodeSpec Model.Legacy Model.Gitlab Model.Bitbucket.

(** One string or a list of strings. *)
Inductive IsSlice : node -> list string -> Prop :=
| slice_null : IsSlice NNull []
| slice_text n s : n <> NNull -> IsText n s -> IsSlice n [s]
| slice_list l ss : Forall2 IsText l ss -> IsSlice (NSeq l) ss.
Definition HasSlice f k x := Has f k IsSlice [] x.

(** The entries of a mapping whose key is not in a list, in order. *)
Inductive Others {A} (keys : list string) (R : node -> A -> Prop) : smap node -> smap A -> Prop :=
| others_nil : Others keys R [] []
| others_skip k n f m : In k keys -> Others keys R f m -> Others keys R ((k, n) :: f) m
| others_keep k n f x m : ~ In k keys -> R n x -> Others keys R f m -> Others keys R ((k, n) :: f) ((k, x) :: m).

(** ** 0.8 *)
Definition Without (c : ascii) (s : string) : Prop := ~ In c (list_ascii_of_string s).
(** Lines key=value: the value goes up to the end of the line, a later line replaces the value
    of an earlier one, other lines count for nothing. *)
Inductive Pairs : list string -> smap string -> Prop :=
| pairs_nil : Pairs [] []
| pairs_other ss m line : Pairs ss m -> Without "=" line -> Pairs (ss ++ [line]) m
| pairs_new ss m k v : Pairs ss m -> Without "=" k -> ~ In k (map fst m) ->
    Pairs (ss ++ [(k +++ "=" +++ v)%string]) (m ++ [(k, v)])
| pairs_again ss m k w m' v : Pairs ss (m ++ (k, w) :: m') -> Without "=" k ->
    Pairs (ss ++ [(k +++ "=" +++ v)%string]) (m ++ (k, v) :: m').
(** A mapping of strings or a list of such lines. *)
Inductive IsPairs : node -> smap string -> Prop :=
| ispairs_map n m : IsMap IsText n m -> IsPairs n m
| ispairs_list l ss m : Forall2 IsText l ss -> Pairs ss m -> IsPairs (NSeq l) m.

(** source:destination and source:destination:mode; read only is the mode ro. *)
Inductive VolumeText : string -> LVolume -> Prop :=
| volume_two a b : Without ":" a -> Without ":" b ->
    VolumeText (a +++ ":" +++ b)%string {| lv_source := a; lv_dest := b; lv_readonly := false |}
| volume_ro a b : Without ":" a -> Without ":" b ->
    VolumeText (a +++ ":" +++ b +++ ":ro")%string {| lv_source := a; lv_dest := b; lv_readonly := true |}
| volume_mode a b c : Without ":" a -> Without ":" b -> c <> "ro" ->
    VolumeText (a +++ ":" +++ b +++ ":" +++ c)%string {| lv_source := a; lv_dest := b; lv_readonly := false |}
| volume_one s : Without ":" s -> VolumeText s {| lv_source := ""; lv_dest := ""; lv_readonly := false |}.
Definition IsLVolume (n : node) (v : LVolume) : Prop := exists s, IsText n s /\ VolumeText s v.

(** A secret is a name, or a mapping with a source and a target. *)
Definition IsLSecret (n : node) (s : LSecret) : Prop := exists f, Fields n f /\
  HasText f "source" (ls_source s) /\ HasText f "target" (ls_target s).
Inductive IsLSecrets : node -> list (option LSecret) -> Prop :=
| secrets_names n ss : IsList IsText n ss ->
    IsLSecrets n (map (fun s => Some {| ls_source := s; ls_target := s |}) ss)
| secrets_maps n l : (forall ss, ~ IsList IsText n ss) -> IsList (IsPtr IsLSecret) n l -> IsLSecrets n l.

(** What cannot be read leaves the list empty, without an error. *)
Definition SliceAt (m : list (node * node)) (k : string) (ss : list string) : Prop :=
  (exists key n, In (key, n) m /\ IsText key k /\ IsSlice n ss) \/
  ((forall key n ss', In (key, n) m -> IsText key k -> ~ IsSlice n ss') /\ ss = []).
Inductive IsConstraint : node -> Condition -> Prop :=
| cons_slice n ss : IsSlice n ss -> IsConstraint n {| c_include := ss; c_exclude := [] |}
| cons_list l : (forall ss, ~ IsSlice (NSeq l) ss) -> IsConstraint (NSeq l) {| c_include := []; c_exclude := [] |}
| cons_map m inc exc : SliceAt m "include" inc -> SliceAt m "exclude" exc ->
    IsConstraint (NMap m) {| c_include := inc; c_exclude := exc |}.
Definition HasConstraint f k x := Has f k IsConstraint {| c_include := []; c_exclude := [] |} x.
Definition IsLConstraints (n : node) (w : LConstraints) : Prop := exists f, Fields n f /\
  HasConstraint f "ref" (lw_ref w) /\ HasConstraint f "repo" (lw_repo w) /\
  HasConstraint f "instance" (lw_instance w) /\ HasConstraint f "environment" (lw_environment w) /\
  HasConstraint f "event" (lw_event w) /\ HasConstraint f "branch" (lw_branch w) /\
  HasConstraint f "status" (lw_status w) /\ HasTextMap f "matrix" (lw_matrix w).

Definition legacyStepKeys : list string :=
  ["command"; "commands"; "detach"; "devices"; "allow_failure"; "tmpfs"; "dns"; "dns_search"; "entrypoint";
   "environment"; "extra_hosts"; "image"; "name"; "privileged"; "pull"; "shell"; "volumes"; "secrets"; "when"].
(** Every key but these is a plugin setting. *)
Definition IsLContainer (n : node) (c : LContainer) : Prop := exists f, Fields n f /\
  HasSlice f "command" (lc_command c) /\ HasSlice f "commands" (lc_commands c) /\
  HasBool f "detach" (lc_detached c) /\ HasTexts f "devices" (lc_devices c) /\
  HasBool f "allow_failure" (lc_err_ignore c) /\ HasTexts f "tmpfs" (lc_tmpfs c) /\
  HasSlice f "dns" (lc_dns c) /\ HasSlice f "dns_search" (lc_dns_search c) /\
  HasSlice f "entrypoint" (lc_entrypoint c) /\ Has f "environment" IsPairs [] (lc_environment c) /\
  HasTexts f "extra_hosts" (lc_extra_hosts c) /\ HasText f "image" (lc_image c) /\ HasText f "name" (lc_name c) /\
  HasBool f "privileged" (lc_privileged c) /\ HasBool f "pull" (lc_pull c) /\ HasText f "shell" (lc_shell c) /\
  Has f "volumes" (IsList (IsPtr IsLVolume)) [] (lc_volumes c) /\
  Has f "secrets" IsLSecrets [] (lc_secrets c) /\
  HasStruct f "when" IsLConstraints (lc_constraints c) /\
  Others legacyStepKeys IsValue f (lc_vargs c).
(** The same container under another name. *)
Definition Renamed (name : string) (c c' : LContainer) : Prop :=
  lc_name c' = name /\
  lc_command c' = lc_command c /\ lc_commands c' = lc_commands c /\ lc_detached c' = lc_detached c /\
  lc_devices c' = lc_devices c /\ lc_err_ignore c' = lc_err_ignore c /\ lc_tmpfs c' = lc_tmpfs c /\
  lc_dns c' = lc_dns c /\ lc_dns_search c' = lc_dns_search c /\ lc_entrypoint c' = lc_entrypoint c /\
  lc_environment c' = lc_environment c /\ lc_extra_hosts c' = lc_extra_hosts c /\ lc_image c' = lc_image c /\
  lc_privileged c' = lc_privileged c /\ lc_pull c' = lc_pull c /\ lc_shell c' = lc_shell c /\
  lc_volumes c' = lc_volumes c /\ lc_secrets c' = lc_secrets c /\ lc_constraints c' = lc_constraints c /\
  lc_vargs c' = lc_vargs c.

Section Containers.
  Variable formatFloat : float64 -> string.
  Variable formatKey : node -> string.
  (** The tree after it has been decoded without a type and written again: truth values and
      numbers lose the spelling they had. *)
  Inductive Rewritten : node -> node -> Prop :=
  | rewritten_null : Rewritten NNull NNull
  | rewritten_str s : Rewritten (NStr s) (NStr s)
  | rewritten_true t : Rewritten (NBool t true) (NBool "true" true)
  | rewritten_false t : Rewritten (NBool t false) (NBool "false" false)
  | rewritten_int t z : Rewritten (NInt t z) (NInt (itoa z) z)
  | rewritten_float t f : Rewritten (NFloat t f) (NFloat (formatFloat f) f)
  | rewritten_seq l l' : Forall2 Rewritten l l' -> Rewritten (NSeq l) (NSeq l')
  | rewritten_map m m' :
      Forall2 (fun kv kv' => Rewritten (fst kv) (fst kv') /\ Rewritten (snd kv) (snd kv')) m m' ->
      Rewritten (NMap m) (NMap m').
  Inductive KeyText : node -> string -> Prop :=
  | key_null : KeyText NNull "<nil>"
  | key_str s : KeyText (NStr s) s
  | key_true t : KeyText (NBool t true) "true"
  | key_false t : KeyText (NBool t false) "false"
  | key_int t z : KeyText (NInt t z) (itoa z)
  | key_float t f : KeyText (NFloat t f) (formatKey (NFloat t f))
  | key_seq l : KeyText (NSeq l) (formatKey (NSeq l))
  | key_map m : KeyText (NMap m) (formatKey (NMap m)).
  (** A section is a mapping from names to containers, in the order written. *)
  Definition NamedContainer (kv : node * node) (c : LContainer) : Prop :=
    exists name n c0, KeyText (fst kv) name /\ Rewritten (snd kv) n /\ IsLContainer n c0 /\ Renamed name c0 c.
  Definition IsContainers (n : node) (cs : list LContainer) : Prop :=
    n = NNull /\ cs = [] \/ exists m, n = NMap m /\ Forall2 NamedContainer m cs.
  Definition IsSecretDef (n : node) (s : LSecretDef) : Prop := exists f, Fields n f /\
    HasText f "driver" (ld_driver s) /\ HasTextMap f "driver_opts" (ld_opts s) /\
    HasText f "path" (ld_path s) /\ HasText f "vault" (ld_vault s).
  Definition IsLConfig (n : node) (g : LConfig) : Prop := exists f, Fields n f /\
    (exists w, HasStruct f "workspace" IsWorkspace w /\ lg_base g = ws_base w /\ lg_path g = ws_path w) /\
    Has f "clone" IsContainers [] (lg_clone g) /\ Has f "pipeline" IsContainers [] (lg_pipeline g) /\
    Has f "services" IsContainers [] (lg_services g) /\ HasConstraint f "branches" (lg_branches g) /\
    Has f "matrix" IsValue VNull (lg_matrix g) /\ Has f "secrets" (IsMap IsSecretDef) [] (lg_secrets g).
  (** The keys of every mapping stay distinct when a container is written again. *)
  Definition StaysDistinct (n : node) : Prop := Distinct n /\
    forall f k m key v w, Fields n f -> In k ["clone"; "pipeline"; "services"] -> In (k, NMap m) f ->
      In (key, v) m -> Rewritten v w -> Distinct w.
End Containers.

(** ** GitLab *)
Inductive IsGImage : node -> GImage -> Prop :=
| gimage_text n s : IsText n s -> IsGImage n {| gi_name := s; gi_entrypoint := []; gi_command := []; gi_alias := "" |}
| gimage_map m f i : Fields (NMap m) f ->
    HasText f "name" (gi_name i) -> HasSlice f "entrypoint" (gi_entrypoint i) ->
    HasSlice f "command" (gi_command i) -> HasText f "alias" (gi_alias i) -> IsGImage (NMap m) i.
Definition HasImages f k x := Has f k (IsList (IsPtr IsGImage)) [] x.
(** The key is allowfailure, not allow_failure. *)
Definition IsGJob (n : node) (j : GJob) : Prop := exists f, Fields n f /\
  HasText f "name" (gj_name j) /\ HasText f "stage" (gj_stage j) /\ HasStruct f "image" IsGImage (gj_image j) /\
  HasSlice f "script" (gj_script j) /\ HasSlice f "before_script" (gj_before j) /\
  HasSlice f "after_script" (gj_after j) /\ HasImages f "services" (gj_services j) /\
  HasSlice f "only" (gj_only j) /\ HasSlice f "except" (gj_except j) /\ HasTextMap f "variables" (gj_variables j) /\
  HasBool f "allowfailure" (gj_allow_failure j) /\ HasSlice f "when" (gj_when j).
Definition gitlabKeys : list string := ["image"; "stages"; "services"; "variables"; "before_script"; "after_script"].
Definition IsGConfig (n : node) (g : GConfig) : Prop := exists f, Fields n f /\
  HasStruct f "image" IsGImage (gc_image g) /\ HasTexts f "stages" (gc_stages g) /\
  HasImages f "services" (gc_services g) /\ HasTextMap f "variables" (gc_variables g) /\
  HasSlice f "before_script" (gc_before g) /\ HasSlice f "after_script" (gc_after g) /\
  Others gitlabKeys (IsPtr IsGJob) f (gc_jobs g).

(** ** Bitbucket *)
Definition IsBStep (n : node) (s : BStep) : Prop := exists f, Fields n f /\
  HasText f "name" (bs_name s) /\ HasText f "image" (bs_image s) /\ HasTexts f "script" (bs_script s) /\
  HasTextMap f "variables" (bs_variables s) /\ HasTexts f "artifacts" (bs_artifacts s).
(** Each element is a mapping; what it holds under the key step counts. *)
Definition IsItem (n : node) (s : option BStep) : Prop := exists f, Fields n f /\ Has f "step" (IsPtr IsBStep) None s.
Definition IsStage : node -> BStage -> Prop := IsList IsItem.
Definition IsBConfig (n : node) (c : BConfig) : Prop := exists f, Fields n f /\
  HasText f "image" (bc_image c) /\
  exists clone g pipelines p definitions d,
    HasStruct f "clone" eq clone /\ Fields clone g /\ HasInt g "depth" (bc_depth c) /\
    HasStruct f "pipelines" eq pipelines /\ Fields pipelines p /\
    Has p "default" IsStage [] (bc_default c) /\ Has p "tags" (IsMap IsStage) [] (bc_tags c) /\
    Has p "branches" (IsMap IsStage) [] (bc_branches c) /\
    HasStruct f "definitions" eq definitions /\ Fields definitions d /\
    Has d "services" (IsMap (IsPtr IsBStep)) [] (bc_services c) /\ HasTextMap d "caches" (bc_caches c).
