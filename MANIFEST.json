{
 "claims": [
  {
   "property": "C01",
   "status": "proved",
   "theorems": [
    "C01_parse_raw_documents",
    "C01_parse_raw_errors",
    "C01_every_file_has_documents",
    "C01_parse_raw_never_panics"
   ],
   "note": ""
  },
  {
   "property": "C02",
   "status": "proved",
   "theorems": [
    "C02_crlf_does_not_matter",
    "C02_final_newline_does_not_matter"
   ],
   "note": ""
  },
  {
   "property": "C03",
   "status": "proved",
   "theorems": [
    "C03_long_line_ends_input",
    "C03_short_lines_are_kept",
    "C03_every_line_is_read_refuted"
   ],
   "note": "The optimistic reading is refuted with a witness; the exact behaviour at and below the limit is proved."
  },
  {
   "property": "C04",
   "status": "proved",
   "theorems": [
    "C04_parse_is_typed_and_complete",
    "C04_bad_document_is_an_error",
    "C04_undecodable_file_is_an_error",
    "C04_parse_never_panics",
    "C04_json_manifest"
   ],
   "note": ""
  },
  {
   "property": "C05",
   "status": "proved",
   "theorems": [
    "C05_signed_file_verifies",
    "C05_any_signed_file_verifies_refuted"
   ],
   "note": "Proved for files without a line ending in CR CR; refuted without that condition (HMAC-SHA256 witness)."
  },
  {
   "property": "C06",
   "status": "proved",
   "theorems": [
    "C06_sign_update_documents",
    "C06_write_to_is_sign_update"
   ],
   "note": ""
  },
  {
   "property": "C07",
   "status": "proved",
   "theorems": [
    "C07_sign_update_idempotent",
    "C07_sign_ignores_signatures"
   ],
   "note": ""
  },
  {
   "property": "C08",
   "status": "proved",
   "theorems": [
    "C08_short_key",
    "C08_long_key"
   ],
   "note": ""
  },
  {
   "property": "C09",
   "status": "proved",
   "theorems": [
    "C09_verify_iff",
    "C09_same_signature_same_content_or_collision",
    "C09_missing_signature_fails",
    "C09_verify_never_panics"
   ],
   "note": ""
  },
  {
   "property": "C10",
   "status": "proved",
   "theorems": [
    "C10_boundaries_signed_refuted",
    "C10_only_content_is_signed"
   ],
   "note": "The optimistic reading is refuted with a witness; what the signature does cover is proved."
  },
  {
   "property": "C11",
   "status": "proved",
   "theorems": [
    "C11_decode_encode",
    "C11_decode_spells",
    "C11_upper_case_verifies",
    "C11_bad_hex_never_verifies"
   ],
   "note": ""
  },
  {
   "property": "C12",
   "status": "proved",
   "theorems": [
    "C12_match_iff",
    "C12_exclude_wins",
    "C12_order_and_repetition",
    "C12_malformed_pattern"
   ],
   "note": ""
  },
  {
   "property": "C13",
   "status": "proved",
   "theorems": [
    "C13_more_excludes",
    "C13_more_includes",
    "C13_first_include_refuted"
   ],
   "note": "The first include pattern can turn a match into a non-match: refuted with a witness; both monotone directions proved."
  },
  {
   "property": "C14",
   "status": "proved",
   "theorems": [
    "C14_skip_iff"
   ],
   "note": ""
  },
  {
   "property": "C15",
   "status": "proved",
   "theorems": [
    "C15_run_policy",
    "C15_policy_determined",
    "C15_no_condition",
    "C15_excluding_success_never_runs"
   ],
   "note": ""
  },
  {
   "property": "C16",
   "status": "proved",
   "theorems": [
    "C16_lint_iff_well_formed",
    "C16_every_error_names_a_defect",
    "C16_defects_are_refused"
   ],
   "note": ""
  },
  {
   "property": "C17",
   "status": "proved",
   "theorems": [
    "C17_untrusted_is_unprivileged"
   ],
   "note": ""
  },
  {
   "property": "C18",
   "status": "proved",
   "theorems": [
    "C18_trust_monotone",
    "C18_trust_exactly",
    "C18_manifest_ignores_trust"
   ],
   "note": ""
  },
  {
   "property": "C19",
   "status": "proved",
   "theorems": [
    "C19_step_graph"
   ],
   "note": ""
  },
  {
   "property": "C20",
   "status": "proved",
   "theorems": [
    "C20_manifest_iff",
    "C20_no_pipeline_cycle",
    "C20_manifest_errors",
    "C20_never_cyclical_pipeline_error",
    "C20_cyclical_step_error_means_self_dependency"
   ],
   "note": ""
  },
  {
   "property": "C21",
   "status": "proved",
   "theorems": [
    "C21_lint_never_panics",
    "C21_manifest_lint_never_panics",
    "C21_lint_never_panics_refuted",
    "C21_null_step_panics"
   ],
   "note": "Proved without null list entries; with a null step the linter panics (refuted, and proved to panic whenever the steps before it are accepted)."
  },
  {
   "property": "C22",
   "status": "proved",
   "theorems": [
    "C22_characters",
    "C22_expand_of_image",
    "C22_expand_of_other",
    "C22_expand_idempotent",
    "C22_expanded_is_image",
    "C22_expanded_host",
    "C22_host_refuted"
   ],
   "note": "The registry-host part is refuted with a witness and proved outside the exact exception."
  },
  {
   "property": "C23",
   "status": "proved",
   "theorems": [
    "C23_trim_of_image",
    "C23_short_name_unique",
    "C23_trim_of_other",
    "C23_trim_of_expanded",
    "C23_trim_ignores_tag",
    "C23_any_tag_refuted",
    "C23_trim_idempotent",
    "C23_trim_idempotent_refuted"
   ],
   "note": "Idempotence and tag-independence are refuted in corner cases with witnesses and proved outside them."
  },
  {
   "property": "C24",
   "status": "proved",
   "theorems": [
    "C24_match_equivalence",
    "C24_match_tag_equivalence",
    "C24_match_tag_implies_match",
    "C24_match_list",
    "C24_match_ignores_tag",
    "C24_match_tag_of_images"
   ],
   "note": ""
  },
  {
   "property": "C25",
   "status": "proved",
   "theorems": [
    "C25_match_same_registry_refuted",
    "C25_match_same_repository",
    "C25_privileged_from_other_registry_refuted"
   ],
   "note": "The optimistic reading is refuted with a witness; the equivalence with 'same repository' is proved under the stated condition."
  },
  {
   "property": "C26",
   "status": "proved",
   "theorems": [
    "C26_dind_iff",
    "C26_dind_same_repository"
   ],
   "note": ""
  },
  {
   "property": "C27",
   "status": "proved",
   "theorems": [
    "C27_steps_in_order"
   ],
   "note": ""
  },
  {
   "property": "C28",
   "status": "proved",
   "theorems": [
    "C28_dependencies"
   ],
   "note": ""
  },
  {
   "property": "C29",
   "status": "proved",
   "theorems": [
    "C29_executable",
    "C29_services_refuted"
   ],
   "note": "Proved for accepted pipelines whose services declare no depends_on; refuted with services that do."
  },
  {
   "property": "C30",
   "status": "proved",
   "theorems": [
    "C30_privileged_iff",
    "C30_untrusted"
   ],
   "note": ""
  },
  {
   "property": "C31",
   "status": "proved",
   "theorems": [
    "C31_socket_mounts",
    "C31_volumes"
   ],
   "note": ""
  },
  {
   "property": "C32",
   "status": "proved",
   "theorems": [
    "C32_untrusted_steps",
    "C32_untrusted_volumes"
   ],
   "note": ""
  },
  {
   "property": "C33",
   "status": "proved",
   "theorems": [
    "C33_mounts",
    "C33_variables"
   ],
   "note": ""
  },
  {
   "property": "C34",
   "status": "proved",
   "theorems": [
    "C34_run_policy"
   ],
   "note": ""
  },
  {
   "property": "C35",
   "status": "proved",
   "theorems": [
    "C35_environment",
    "C35_case_collision_refuted"
   ],
   "note": "Proved for every iteration order of the maps when no two settings differ only in case; refuted otherwise."
  },
  {
   "property": "C36",
   "status": "proved",
   "theorems": [
    "C36_working_dir",
    "C36_working_dir_refuted"
   ],
   "note": "The optimistic reading is refuted with a witness; the exact working directory is proved for every container."
  },
  {
   "property": "C37",
   "status": "proved",
   "theorems": [
    "C37_scripts"
   ],
   "note": ""
  },
  {
   "property": "C38",
   "status": "proved",
   "theorems": [
    "C38_files_exist",
    "C38_files_distinct",
    "C38_git_credentials_refuted"
   ],
   "note": "Existence proved for all pipelines; uniqueness for accepted pipelines without a container named .git-credentials, refuted otherwise."
  },
  {
   "property": "C39",
   "status": "proved",
   "theorems": [
    "C39_images",
    "C39_built_images",
    "C39_determinism_refuted",
    "C39_builder_image_refuted"
   ],
   "note": "Proved for every map order when no two build sections name equivalent images and no build image is another one's generated alias; determinism refuted when two do; 'build steps run drone/docker' refuted."
  },
  {
   "property": "C40",
   "status": "proved",
   "theorems": [
    "C40_identifiers",
    "C40_identifiers_distinct",
    "C40_namespace",
    "C40_host_workspace_refuted"
   ],
   "note": "Proved; the namespace part is refuted for the volume of a host workspace."
  },
  {
   "property": "C41",
   "status": "proved",
   "theorems": [
    "C41_name",
    "C41_shape",
    "C41_one_read",
    "C41_unbiased"
   ],
   "note": ""
  },
  {
   "property": "C42",
   "status": "proved",
   "theorems": [
    "C42_workspace",
    "C42_components",
    "C42_written",
    "C42_walk_is_plain",
    "C42_below",
    "C42_windows",
    "C42_below_refuted"
   ],
   "note": "The full path is the unique clean path to where base and path lead; below the base proved for paths without '..', refuted with them."
  },
  {
   "property": "C43",
   "status": "proved",
   "theorems": [
    "C43_include",
    "C43_exclude",
    "C43_resume"
   ],
   "note": ""
  },
  {
   "property": "C44",
   "status": "proved",
   "theorems": [
    "C44_requested"
   ],
   "note": ""
  },
  {
   "property": "C45",
   "status": "proved",
   "theorems": [
    "C45_environ",
    "C45_environ_idempotent",
    "C45_netrc",
    "C45_proxy"
   ],
   "note": ""
  },
  {
   "property": "C46",
   "status": "proved",
   "theorems": [
    "C46_limits",
    "C46_keeps_cpu_refuted"
   ],
   "note": "Exact effect proved; 'a memory limit keeps the CPU limit' refuted with a witness."
  },
  {
   "property": "C47",
   "status": "proved",
   "theorems": [
    "C47_labels",
    "C47_networks",
    "C47_auths",
    "C47_auths_func",
    "C47_secrets",
    "C47_volumes",
    "C47_volume_slice"
   ],
   "note": ""
  },
  {
   "property": "C48",
   "status": "proved",
   "theorems": [
    "C48_default_workspace",
    "C48_no_panic",
    "C48_labels_refuted"
   ],
   "note": "'Never panics' refuted with a host workspace; proved for every spec compiled with the default workspace."
  },
  {
   "property": "C49",
   "status": "proved",
   "theorems": [
    "C49_sequence",
    "C49_nesting",
    "C49_attached"
   ],
   "note": ""
  },
  {
   "property": "C50",
   "status": "proved",
   "theorems": [
    "C50_table",
    "C50_never_fails",
    "C50_unreadable",
    "C50_scalar_include_refuted"
   ],
   "note": "Exact table proved for every tree without duplicate keys; a scalar under include is silently dropped (refuted with a witness)."
  },
  {
   "property": "C51",
   "status": "proved",
   "theorems": [
    "C51_variable",
    "C51_parameter",
    "C51_variable_roundtrip",
    "C51_variable_roundtrip_refuted",
    "C51_secret_setting_roundtrip",
    "C51_setting_roundtrip"
   ],
   "note": "Exact tables and round trips proved; an entry with both a value and a secret loses its value when marshalled (refuted with a witness)."
  },
  {
   "property": "C52",
   "status": "proved",
   "theorems": [
    "C52_port",
    "C52_build",
    "C52_push",
    "C52_port_roundtrip",
    "C52_build_roundtrip",
    "C52_push_roundtrip"
   ],
   "note": ""
  },
  {
   "property": "C53",
   "status": "proved",
   "theorems": [
    "C53_cron",
    "C53_secret",
    "C53_signature",
    "C53_registry"
   ],
   "note": ""
  },
  {
   "property": "C54",
   "status": "proved",
   "theorems": [
    "C54_first_combinations",
    "C54_all_combinations",
    "C54_product_is_combinations",
    "C54_each_once",
    "C54_number",
    "C54_any_map_order",
    "C54_include_list",
    "C54_document",
    "C54_no_matrix",
    "C54_unreadable",
    "C54_limits_refuted"
   ],
   "note": "Proved for all matrices with distinct axes, no empty axis and a product below 2^63; the cut-offs are refuted as completeness with witnesses."
  },
  {
   "property": "C55",
   "status": "proved",
   "theorems": [
    "C55_empty_axis_refuted",
    "C55_no_panic",
    "C55_overflow_refuted"
   ],
   "note": "Panic witnesses for an empty axis (map-order dependent) and for 64-bit overflow; no panic otherwise."
  },
  {
   "property": "C56",
   "status": "proved",
   "theorems": [
    "C56_containers",
    "C56_pipeline",
    "C56_null_entry_panics",
    "C56_workspace",
    "C56_manifest_without_matrix",
    "C56_manifest_with_matrix"
   ],
   "note": "Decoded configuration to manifest; the yaml reader and writer are parameters. With a null volume or secret entry the conversion panics (proved)."
  },
  {
   "property": "C57",
   "status": "proved",
   "theorems": [
    "C57_distinct",
    "C57_names",
    "C57_distinct_refuted"
   ],
   "note": "Distinctness refuted with the witness a_2, a, a, which Lint rejects; proved when no name ends in an underscore and a number."
  },
  {
   "property": "C58",
   "status": "proved",
   "theorems": [
    "C58_environment",
    "C58_every_mount_has_its_volume",
    "C58_volumes",
    "C58_volume_names_distinct",
    "C58_secrets",
    "C58_secrets_any_order",
    "C58_clone_volume_refuted",
    "C58_read_only_refuted"
   ],
   "note": "Proved for steps and services; refuted for volumes of clone containers (mounted, never declared) and for the read-only flag, which is lost."
  },
  {
   "property": "C59",
   "status": "proved",
   "theorems": [
    "C59_trigger"
   ],
   "note": ""
  },
  {
   "property": "C60",
   "status": "proved",
   "theorems": [
    "C60_copies",
    "C60_dropped_iff",
    "C60_axis",
    "C60_all_keys_refuted",
    "C60_once_refuted"
   ],
   "note": "The disjunction is proved; 'all keys needed' and 'at most once' are refuted."
  },
  {
   "property": "C61",
   "status": "proved",
   "theorems": [
    "C61_stages",
    "C61_no_stages",
    "C61_null_job_panics",
    "C61_null_service_panics",
    "C61_any_order_refuted",
    "C61_allow_failure_refuted",
    "C61_only_jobs_refuted"
   ],
   "note": "Stages, jobs, services and dependencies proved for every map order; without stages the pipeline order is map order (refuted as deterministic); allow_failure has no effect and keys such as cache become jobs (both refuted with witnesses); null jobs and services panic (proved)."
  },
  {
   "property": "C62",
   "status": "proved",
   "theorems": [
    "C62_selection",
    "C62_any_order",
    "C62_pipeline",
    "C62_null_step_panics",
    "C62_any_order_refuted",
    "C62_parallel_refuted"
   ],
   "note": "Selection proved for every map order and every pattern matcher; deterministic when at most one pattern matches, refuted otherwise; a parallel group panics (refuted with a witness)."
  },
  {
   "property": "C63",
   "status": "proved",
   "theorems": [
    "C63_match_iff",
    "C63_match_iff_line",
    "C63_unchanged",
    "C63_converters",
    "C63_legacy_converted_refuted"
   ],
   "note": "The pattern is proved equivalent to a line 'pipeline:' followed by white space; a comment on that line keeps a legacy file from being converted (refuted). convert_oss.go returns its input by definition."
  },
  {
   "property": "C64",
   "status": "proved",
   "theorems": [
    "C64_strings",
    "C64_entries",
    "C64_quoted_strings",
    "C64_boundary",
    "C64_all_strings_refuted"
   ],
   "note": "Proved against a reader of block yaml written as a specification; the exact set of legible strings that are read back is characterised; refuted for all strings (null words, anchors, tags, a lone dash)."
  },
  {
   "property": "C65",
   "status": "proved",
   "theorems": [
    "C65_documents",
    "C65_each",
    "C65_keeps_every_resource_refuted",
    "C65_output_parses_refuted"
   ],
   "note": "The text of each resource is independent of the others; registries print nothing; that every resource is kept, and that the output always parses, are refuted."
  },
  {
   "property": "C66",
   "status": "proved",
   "theorems": [
    "C66_balanced",
    "C66_documents_start_at_the_margin"
   ],
   "note": "For every printer: depth, zero flag and index stack restored, and every line it appends is empty or indented at least as deep as it started."
  },
  {
   "property": "C67",
   "status": "proved",
   "theorems": [
    "C67_panics",
    "C67_no_error",
    "C67_never_panics_refuted"
   ],
   "note": "Panics exactly on null devices, variables, ports, settings, mounts or volumes, for maps with distinct keys; 'never panics' is refuted by a parsed file."
  },
  {
   "property": "C68",
   "status": "proved",
   "theorems": [
    "C68_secret"
   ],
   "note": "The exact text of a printed secret."
  },
  {
   "property": "C69",
   "status": "proved",
   "theorems": [
    "C69_convert_never_saves",
    "C69_convert_prints",
    "C69_save_refuted"
   ],
   "note": "Proved for all command lines: convert touches no file; 'convert --save overwrites the file' is refuted with a witness."
  },
  {
   "property": "C70",
   "status": "proved",
   "theorems": [
    "C70_hostname_of_image",
    "C70_hostname_of_other",
    "C70_hostname_unique"
   ],
   "note": ""
  },
  {
   "property": "C71",
   "status": "proved",
   "theorems": [
    "C71_document",
    "C71_header"
   ],
   "note": ""
  },
  {
   "property": "C72",
   "status": "proved",
   "theorems": [
    "C72_pipeline_key_order",
    "C72_step_key_order",
    "C72_unknown_pipeline_key",
    "C72_unknown_step_key"
   ],
   "note": ""
  },
  {
   "property": "C73",
   "status": "proved",
   "theorems": [
    "C73_null_steps",
    "C73_parse_then_lint_refuted"
   ],
   "note": "The optimistic reading is refuted with a witness; which lists give nil steps is proved."
  },
  {
   "property": "C74",
   "status": "proved",
   "theorems": [
    "C74_substitution",
    "C74_any_order",
    "C74_any_order_refuted"
   ],
   "note": "Proved for clean names and values; order independence refuted without that condition."
  },
  {
   "property": "C75",
   "status": "proved",
   "theorems": [
    "C75_total"
   ],
   "note": ""
  },
  {
   "property": "C76",
   "status": "proved",
   "theorems": [
    "C76_carried_fields",
    "C76_header",
    "C76_files",
    "C76_build_steps_refuted"
   ],
   "note": "Carried fields, header and files are proved; the reading that build steps keep environment, commands and ports is refuted with a witness."
  },
  {
   "property": "C77",
   "status": "proved",
   "theorems": [
    "C77_clone_image",
    "C77_clone_credentials"
   ],
   "note": ""
  },
  {
   "property": "C78",
   "status": "proved",
   "theorems": [
    "C78_trace_word",
    "C78_trace_prints_command",
    "C78_trace_injective",
    "C78_windows_trace",
    "C78_script_variable",
    "C78_backquote_refuted",
    "C78_windows_quote_refuted"
   ],
   "note": "Proved for commands without backquotes (posix) and without single quotes (Windows); refuted otherwise with witnesses."
  },
  {
   "property": "C79",
   "status": "proved",
   "theorems": [
    "C79_setting_text",
    "C79_list_recovered",
    "C79_list_injective_refuted"
   ],
   "note": "The exact text is proved; that lists can be told apart is proved without commas and refuted with them."
  },
  {
   "property": "C80",
   "status": "proved",
   "theorems": [
    "C80_resources",
    "C80_thousandths_refuted"
   ],
   "note": "Proved for normal doubles m/2^d with the stated error; the decimal reading is refuted with 1.001."
  },
  {
   "property": "C81",
   "status": "proved",
   "theorems": [
    "C81_volume_names",
    "C81_mounts_resolve",
    "C81_undeclared_mount_refuted",
    "C81_duplicate_volumes_refuted",
    "C81_host_volume_refuted"
   ],
   "note": "Proved under the stated conditions; each condition the linter does not ensure is refuted with a witness."
  },
  {
   "property": "C82",
   "status": "proved",
   "theorems": [
    "C82_round_trip",
    "C82_every_setting_refuted",
    "C82_every_variable_refuted",
    "C82_every_trigger_refuted"
   ],
   "note": "For the formattable manifests (Spec/PrettySpec.v) whose lines are below the scanner's limit, and every reader that agrees with that of Spec/YamlSpec.v on the documents the latter reads; unconditional versions refuted with witnesses."
  },
  {
   "property": "C83",
   "status": "proved",
   "theorems": [
    "C83_idempotent",
    "C83_always_refuted"
   ],
   "note": "Same conditions as C82; refuted without."
  },
  {
   "property": "C84",
   "status": "proved",
   "theorems": [
    "C84_only_saves",
    "C84_format",
    "C84_format_twice"
   ],
   "note": "A failed write is taken to leave the file as it was."
  },
  {
   "property": "C85",
   "status": "proved",
   "theorems": [
    "C85_verify",
    "C85_sign",
    "C85_sign_save",
    "C85_sign_then_verify"
   ],
   "note": "Same conditions as C05."
  },
  {
   "property": "C86",
   "status": "proved",
   "theorems": [
    "C86_streams",
    "C86_lint",
    "C86_lint_checks_the_manifest_refuted"
   ],
   "note": "The optimistic reading is refuted with a witness."
  },
  {
   "property": "C87",
   "status": "proved",
   "theorems": [
    "C87_compile",
    "C87_commit_variables",
    "C87_given_variables",
    "C87_env_is_kept_refuted",
    "C87_compiles_only_accepted_refuted"
   ],
   "note": "Exact status and exact output up to the JSON encoder; '--env variables are kept' and 'only accepted pipelines are compiled' refuted."
  },
  {
   "property": "C88",
   "status": "proved",
   "theorems": [
    "C88_constraint",
    "C88_container",
    "C88_file",
    "C88_conversion",
    "C88_constraint_kept_refuted"
   ],
   "note": "Exact (if and only if) decoding of the whole file, for trees whose keys stay distinct when a step is written again; that a constraint is never lost is refuted with a witness."
  },
  {
   "property": "C89",
   "status": "proved",
   "theorems": [
    "C89_file",
    "C89_conversion"
   ],
   "note": "Exact decoding of the whole file."
  },
  {
   "property": "C90",
   "status": "proved",
   "theorems": [
    "C90_file",
    "C90_conversion"
   ],
   "note": "Exact decoding of the whole file."
  },
  {
   "property": "C91",
   "status": "proved",
   "theorems": [
    "C91_resource",
    "C91_manifest"
   ],
   "note": ""
  },
  {
   "property": "C92",
   "status": "proved",
   "theorems": [
    "C92_written",
    "C92_writable",
    "C92_never_panics",
    "C92_text",
    "C92_every_manifest_refuted"
   ],
   "note": "The exact form and the exact condition for success are proved; that every manifest can be written is refuted by a setting that is a mapping."
  },
  {
   "property": "C93",
   "status": "proved",
   "theorems": [
    "C93_round_trip",
    "C93_same_values_refuted",
    "C93_same_type_refuted"
   ],
   "note": "Proved for resources that carry the kind of their type, up to the stated changes; that values and types always survive is refuted with witnesses."
  },
  {
   "property": "C94",
   "status": "proved",
   "theorems": [
    "C94_documents",
    "C94_keys",
    "C94_step_keys",
    "C94_order"
   ],
   "note": ""
  },
  {
   "property": "C95",
   "status": "proved",
   "theorems": [
    "C95_round_trip",
    "C95_same_values_refuted"
   ],
   "note": "The emitter and the reader of the yaml library are parameters; the hypothesis on them is checked on a file. That all values come back is refuted with a witness."
  },
  {
   "property": "C96",
   "status": "proved",
   "theorems": [
    "C96_sizes",
    "C96_whole",
    "C96_large_refuted"
   ],
   "note": "Exact (if and only if) for the go-units 0.3.3 grammar and float64 arithmetic; wrapping refuted for amd64 conversion."
  },
  {
   "property": "C97",
   "status": "proved",
   "theorems": [
    "C97_text",
    "C97_multiples",
    "C97_multiples_read_back",
    "C97_formattable",
    "C97_close",
    "C97_readable",
    "C97_format_keeps_refuted",
    "C97_format_parses_refuted"
   ],
   "note": "Exact text of every size, exact domain of the round trip and its error bound; preservation, idempotence and parsability of formatted files refuted with whole files."
  },
  {
   "property": "C98",
   "status": "proved",
   "theorems": [
    "C98_text",
    "C98_number_keys_refuted",
    "C98_large_numbers_refuted"
   ],
   "note": "Exact text for every manifest that does not make the formatter panic; that settings keep their values is refuted with whole files."
  },
  {
   "property": "C99",
   "status": "proved",
   "theorems": [
    "C99_strings"
   ],
   "note": ""
  },
  {
   "property": "C100",
   "status": "proved",
   "theorems": [
    "C100_only_meaning",
    "C100_whole_meaning",
    "C100_anchored",
    "C100_no_error",
    "C100_selection",
    "C100_branches",
    "C100_whole_meaning_refuted",
    "C100_only_meaning_refuted"
   ],
   "note": "path.Match modelled after its published source. Sound for ASCII names, complete for UTF-8 names and patterns without a slash in a class between two stars; both conditions shown necessary."
  },
  {
   "property": "C101",
   "status": "proved",
   "theorems": [
    "C101_host_and_path",
    "C101_parts",
    "C101_scp_is_no_url",
    "C101_workspace",
    "C101_workspace_without_host",
    "C101_kubernetes",
    "C101_stays_below_refuted"
   ],
   "note": "url.Parse modelled after its published source (Go 1.12.8). That the workspace stays below the base is refuted with a witness."
  },
  {
   "property": "C102",
   "status": "proved",
   "theorems": [
    "C102_matches",
    "C102_no_error",
    "C102_condition",
    "C102_plain",
    "C102_star",
    "C102_below",
    "C102_everything",
    "C102_lists",
    "C102_level_itself_refuted"
   ],
   "note": "doublestar.Match modelled after its published source (1.1.1). That name/** matches name is refuted."
  },
  {
   "property": "C103",
   "status": "proved",
   "theorems": [
    "C103_refs",
    "C103_only_refs",
    "C103_listed",
    "C103_level_in_front",
    "C103_only_listed_refuted"
   ],
   "note": "With the doublestar model of C102. That only listed branches are built is refuted with a pull request."
  },
  {
   "property": "C104",
   "status": "proved",
   "theorems": [
    "C104_accepted_has_no_nulls",
    "C104_accepted_compiles",
    "C104_trusted_refuted",
    "C104_waits_refuted"
   ],
   "note": "For untrusted repositories. For trusted ones refuted with a null port; the graph without the clone step is refuted with a step that waits for it."
  },
  {
   "property": "C105",
   "status": "proved",
   "theorems": [
    "C105_same_verdicts",
    "C105_command",
    "C105_every_file_refuted"
   ],
   "note": "For the files C82 covers. Refuted for others with an empty build section."
  },
  {
   "property": "C106",
   "status": "proved",
   "theorems": [
    "C106_pipeline",
    "C106_manifest",
    "C106_distinct_names",
    "C106_commands",
    "C106_every_file_refuted"
   ],
   "note": "Files with a matrix are not covered by the theorem about the commands. Refuted for every file with distinct names with a step called clone."
  },
  {
   "property": "C107",
   "status": "proved",
   "theorems": [
    "C107_map_order",
    "C107_transformed",
    "C107_transforms",
    "C107_command",
    "C107_equal_refuted",
    "C107_same_output_refuted"
   ],
   "note": "Transforms that ask others for secrets are not covered: what they are asked for follows the order of the maps. The text of JSON settings is taken not to depend on the order. Refuted without the conditions (C35, C39), for equality instead of sameness, and for the text of the output."
  },
  {
   "property": "C108",
   "status": "proved",
   "theorems": [
    "C108_signed_is_formatted",
    "C108_reads_signatures",
    "C108_commands",
    "C108_format_after_sign_refuted"
   ],
   "note": "Proved for the files of C82 under the same conditions. C108_reads_signatures shows that every such reader meets the condition on decoders of C05 to C07. C108_format_after_sign_refuted: the same in the other order."
  },
  {
   "property": "C109",
   "status": "proved",
   "theorems": [
    "C109_runs",
    "C109_commands",
    "C109_failure_refuted"
   ],
   "note": "Files with a matrix are not covered. What the flags of the command add afterwards is C87. Refuted for allow_failure and devices."
  },
  {
   "property": "C110",
   "status": "proved",
   "theorems": [
    "C110_gitlab_lint",
    "C110_gitlab_runs",
    "C110_bitbucket",
    "C110_gitlab_commands",
    "C110_bitbucket_commands",
    "C110_variables_refuted"
   ],
   "note": "Files with null jobs, services or steps crash (C61, C62). What the flags of the command add afterwards is C87. Refuted for variables, only, services and allow_failure of a job."
  },
  {
   "property": "C111",
   "status": "proved",
   "theorems": [
    "C111_lines",
    "C111_twice",
    "C111_commands",
    "C111_formatted",
    "C111_saved",
    "C111_other_name_refuted"
   ],
   "note": "The only condition is that fmt.Sprint writes a float on one line (OneLine), which strconv does. Refuted for files kept under the name of another system."
  },
  {
   "property": "C112",
   "status": "proved",
   "theorems": [
    "C112_reads_as_written",
    "C112_resources",
    "C112_readable",
    "C112_compile",
    "C112_lint",
    "C112_lint_status",
    "C112_long_line",
    "C112_everything_kept_refuted"
   ],
   "note": "C112_reads_as_written shows that every reader of C82 meets the condition on decoders. As in C05, no line may end in CR CR. Refuted for the text as a whole: C112_long_line and C112_everything_kept_refuted."
  },
  {
   "property": "C113",
   "status": "proved",
   "theorems": [
    "C113_joined_documents",
    "C113_joined",
    "C113_start_mark",
    "C113_after_end",
    "C113_formatted_ended",
    "C113_signed_ended",
    "C113_commands",
    "C113_joined_lint",
    "C113_joined_compile",
    "C113_append_to_signed",
    "C113_joining_formatted_refuted",
    "C113_convert_refuted"
   ],
   "note": "No condition on the yaml decoder except for C113_append_to_signed, which is that of C05. Refuted for joined formatted files and for convert."
  },
  {
   "property": "C114",
   "status": "proved",
   "theorems": [
    "C114_compile",
    "C114_command",
    "C114_trigger_refuted"
   ],
   "note": "The skip and privilege functions of the command are shown to satisfy the condition on them. Refuted for the trigger of the pipeline."
  },
  {
   "property": "C115",
   "status": "proved",
   "theorems": [
    "C115_can_be_ordered",
    "C115_order_matters",
    "C115_manifest",
    "C115_command",
    "C115_compile",
    "C115_acyclic_accepted_refuted"
   ],
   "note": "Refuted for acyclic graphs in the wrong order."
  },
  {
   "property": "C116",
   "status": "proved",
   "theorems": [
    "C116_any_order",
    "C116_exactly",
    "C116_nothing_else",
    "C116_secrets",
    "C116_limits",
    "C116_secrets_any_order_refuted"
   ],
   "note": "Refuted for the callback for secrets, which sees the policies."
  },
  {
   "property": "C117",
   "status": "proved",
   "theorems": [
    "C117_accepts",
    "C117_crashes",
    "C117_lint",
    "C117_format",
    "C117_signatures",
    "C117_without_nulls",
    "C117_commands_agree_refuted"
   ],
   "note": "Lint accepting and crashing characterised exactly for all pipelines, null entries included; exact crash conditions of the lint and format commands; sign and verify never crash; no crash without null entries; that the commands crash on the same files is refuted."
  },
  {
   "property": "C118",
   "status": "proved",
   "theorems": [
    "C118_lint",
    "C118_manifest",
    "C118_command",
    "C118_every_defect_reported_refuted"
   ],
   "note": "Lint, the manifest linter and the lint command decided by the first rule of an ordered list that applies, for all inputs including null entries; that every defect is reported is refuted."
  },
  {
   "property": "C119",
   "status": "proved",
   "theorems": [
    "C119_unread",
    "C119_compiles",
    "C119_grown",
    "C119_first_dependency_refuted",
    "C119_late_build_refuted"
   ],
   "note": "C119_grown is the claim, C119_compiles says when the longer pipeline compiles and C119_unread what is never read; the two refuted theorems show that its conditions on builds and dependencies are needed."
  },
  {
   "property": "C120",
   "status": "proved",
   "theorems": [
    "C120_alike",
    "C120_build",
    "C120_image_refuted"
   ],
   "note": "C120_alike covers clone, services and ordinary steps, C120_build those that build an image; C120_image_refuted shows why the image needs a condition."
  },
  {
   "property": "C121",
   "status": "proved",
   "theorems": [
    "C121_part",
    "C121_part_refused",
    "C121_manifest",
    "C121_manifest_refused",
    "C121_mounts_refuted"
   ],
   "note": "C121_part and C121_manifest give the condition, the _refused theorems the message otherwise; C121_mounts_refuted shows that mounts are not looked at."
  },
  {
   "property": "C122",
   "status": "proved",
   "theorems": [
    "C122_command",
    "C122_git",
    "C122_present_refuted"
   ],
   "note": "Proved for the command and for the compiler; that the presence of a password does show is C122_present_refuted."
  },
  {
   "property": "C123",
   "status": "proved",
   "theorems": [
    "C123_command",
    "C123_skip"
   ],
   "note": "C123_command is about the command, C123_skip about the compiler with any two skip functions."
  },
  {
   "property": "C124",
   "status": "proved",
   "theorems": [
    "C124_lint",
    "C124_compile",
    "C124_callbacks",
    "C124_clone_refuted"
   ],
   "note": "C124_lint and C124_compile; C124_callbacks shows that the hypothesis on callbacks holds for those of the package, C124_clone_refuted why clone must be kept."
  },
  {
   "property": "C125",
   "status": "proved",
   "theorems": [
    "C125_manifest",
    "C125_lint",
    "C125_compile",
    "C125_selected",
    "C125_equal_refuted"
   ],
   "note": "C125_manifest, C125_lint, C125_compile and C125_selected; C125_equal_refuted shows why the renaming must be injective."
  },
  {
   "property": "C126",
   "status": "proved",
   "theorems": [
    "C126_lint",
    "C126_compile",
    "C126_callbacks",
    "C126_reserved_refuted"
   ],
   "note": "C126_lint and C126_compile; C126_callbacks shows that the hypothesis on callbacks holds for those of the package, C126_reserved_refuted why known names must be kept."
  },
  {
   "property": "C127",
   "status": "proved",
   "theorems": [
    "C127_lint",
    "C127_compile",
    "C127_callbacks",
    "C127_empty_refuted"
   ],
   "note": "C127_lint and C127_compile; C127_callbacks shows that the hypothesis on callbacks holds for those of the package, C127_empty_refuted why names must stay non-empty."
  }
 ]
}