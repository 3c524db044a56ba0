{
 "C03": {
  "note": "The optimistic reading is refuted with a witness; the exact behaviour at and below the limit is proved."
 },
 "C05": {
  "note": "Proved for files without a line ending in CR CR; refuted without that condition (HMAC-SHA256 witness)."
 },
 "C10": {
  "note": "The optimistic reading is refuted with a witness; what the signature does cover is proved."
 },
 "C13": {
  "note": "The first include pattern can turn a match into a non-match: refuted with a witness; both monotone directions proved."
 },
 "C21": {
  "note": "Proved without null list entries; with a null step the linter panics (refuted, and proved to panic whenever the steps before it are accepted)."
 },
 "C22": {
  "note": "The registry-host part is refuted with a witness and proved outside the exact exception."
 },
 "C23": {
  "note": "Idempotence and tag-independence are refuted in corner cases with witnesses and proved outside them."
 },
 "C25": {
  "note": "The optimistic reading is refuted with a witness; the equivalence with 'same repository' is proved under the stated condition."
 },
 "C29": {
  "note": "Proved for accepted pipelines whose services declare no depends_on; refuted with services that do."
 },
 "C35": {
  "note": "Proved for every iteration order of the maps when no two settings differ only in case; refuted otherwise."
 },
 "C36": {
  "note": "The optimistic reading is refuted with a witness; the exact working directory is proved for every container."
 },
 "C38": {
  "note": "Existence proved for all pipelines; uniqueness for accepted pipelines without a container named .git-credentials, refuted otherwise."
 },
 "C39": {
  "note": "Proved for every map order when no two build sections name equivalent images and no build image is another one's generated alias; determinism refuted when two do; 'build steps run drone/docker' refuted."
 },
 "C40": {
  "note": "Proved; the namespace part is refuted for the volume of a host workspace."
 },
 "C42": {
  "note": "The full path is the unique clean path to where base and path lead; below the base proved for paths without '..', refuted with them."
 },
 "C46": {
  "note": "Exact effect proved; 'a memory limit keeps the CPU limit' refuted with a witness."
 },
 "C48": {
  "note": "'Never panics' refuted with a host workspace; proved for every spec compiled with the default workspace."
 },
 "C50": {
  "note": "Exact table proved for every tree without duplicate keys; a scalar under include is silently dropped (refuted with a witness)."
 },
 "C51": {
  "note": "Exact tables and round trips proved; an entry with both a value and a secret loses its value when marshalled (refuted with a witness)."
 },
 "C54": {
  "note": "Proved for all matrices with distinct axes, no empty axis and a product below 2^63; the cut-offs are refuted as completeness with witnesses."
 },
 "C55": {
  "note": "Panic witnesses for an empty axis (map-order dependent) and for 64-bit overflow; no panic otherwise."
 },
 "C56": {
  "note": "Decoded configuration to manifest; the yaml reader and writer are parameters. With a null volume or secret entry the conversion panics (proved)."
 },
 "C57": {
  "note": "Distinctness refuted with the witness a_2, a, a, which Lint rejects; proved when no name ends in an underscore and a number."
 },
 "C58": {
  "note": "Proved for steps and services; refuted for volumes of clone containers (mounted, never declared) and for the read-only flag, which is lost."
 },
 "C60": {
  "note": "The disjunction is proved; 'all keys needed' and 'at most once' are refuted."
 },
 "C73": {
  "note": "The optimistic reading is refuted with a witness; which lists give nil steps is proved."
 },
 "C74": {
  "note": "Proved for clean names and values; order independence refuted without that condition."
 },
 "C61": {
  "note": "Stages, jobs, services and dependencies proved for every map order; without stages the pipeline order is map order (refuted as deterministic); allow_failure has no effect and keys such as cache become jobs (both refuted with witnesses); null jobs and services panic (proved)."
 },
 "C62": {
  "note": "Selection proved for every map order and every pattern matcher; deterministic when at most one pattern matches, refuted otherwise; a parallel group panics (refuted with a witness)."
 },
 "C63": {
  "note": "The pattern is proved equivalent to a line 'pipeline:' followed by white space; a comment on that line keeps a legacy file from being converted (refuted). convert_oss.go returns its input by definition."
 },
 "C76": {
  "note": "Carried fields, header and files are proved; the reading that build steps keep environment, commands and ports is refuted with a witness."
 },
 "C78": {
  "note": "Proved for commands without backquotes (posix) and without single quotes (Windows); refuted otherwise with witnesses."
 },
 "C79": {
  "note": "The exact text is proved; that lists can be told apart is proved without commas and refuted with them."
 },
 "C80": {
  "note": "Proved for normal doubles m/2^d with the stated error; the decimal reading is refuted with 1.001."
 },
 "C81": {
  "note": "Proved under the stated conditions; each condition the linter does not ensure is refuted with a witness."
 },
 "C64": {
  "note": "Proved against a reader of block yaml written as a specification; the exact set of legible strings that are read back is characterised; refuted for all strings (null words, anchors, tags, a lone dash)."
 },
 "C65": {
  "note": "The text of each resource is independent of the others; registries print nothing; that every resource is kept, and that the output always parses, are refuted."
 },
 "C66": {
  "note": "For every printer: depth, zero flag and index stack restored, and every line it appends is empty or indented at least as deep as it started."
 },
 "C67": {
  "note": "Panics exactly on null devices, variables, ports, settings, mounts or volumes, for maps with distinct keys; 'never panics' is refuted by a parsed file."
 },
 "C68": {
  "note": "The exact text of a printed secret."
 },
 "C82": {
  "note": "For the formattable manifests (Spec/PrettySpec.v) whose lines are below the scanner's limit, and every reader that agrees with that of Spec/YamlSpec.v on the documents the latter reads; unconditional versions refuted with witnesses."
 },
 "C83": {
  "note": "Same conditions as C82; refuted without."
 },
 "C69": {
  "note": "Proved for all command lines: convert touches no file; 'convert --save overwrites the file' is refuted with a witness."
 },
 "C84": {
  "note": "A failed write is taken to leave the file as it was."
 },
 "C85": {
  "note": "Same conditions as C05."
 },
 "C86": {
  "note": "The optimistic reading is refuted with a witness."
 },
 "C87": {
  "note": "Exact status and exact output up to the JSON encoder; '--env variables are kept' and 'only accepted pipelines are compiled' refuted."
 },
 "C88": {
  "note": "Exact (if and only if) decoding of the whole file, for trees whose keys stay distinct when a step is written again; that a constraint is never lost is refuted with a witness."
 },
 "C89": {
  "note": "Exact decoding of the whole file."
 },
 "C90": {
  "note": "Exact decoding of the whole file."
 },
 "C92": {
  "note": "The exact form and the exact condition for success are proved; that every manifest can be written is refuted by a setting that is a mapping."
 },
 "C93": {
  "note": "Proved for resources that carry the kind of their type, up to the stated changes; that values and types always survive is refuted with witnesses."
 },
 "C95": {
  "note": "The emitter and the reader of the yaml library are parameters; the hypothesis on them is checked on a file. That all values come back is refuted with a witness."
 },
 "C96": {
  "note": "Exact (if and only if) for the go-units 0.3.3 grammar and float64 arithmetic; wrapping refuted for amd64 conversion."
 },
 "C97": {
  "note": "Exact text of every size, exact domain of the round trip and its error bound; preservation, idempotence and parsability of formatted files refuted with whole files."
 },
 "C98": {
  "note": "Exact text for every manifest that does not make the formatter panic; that settings keep their values is refuted with whole files."
 },
 "C100": {
  "note": "path.Match modelled after its published source. Sound for ASCII names, complete for UTF-8 names and patterns without a slash in a class between two stars; both conditions shown necessary."
 },
 "C101": {
  "note": "url.Parse modelled after its published source (Go 1.12.8). That the workspace stays below the base is refuted with a witness."
 },
 "C102": {
  "note": "doublestar.Match modelled after its published source (1.1.1). That name/** matches name is refuted."
 },
 "C103": {
  "note": "With the doublestar model of C102. That only listed branches are built is refuted with a pull request."
 },
 "C104": {
  "note": "For untrusted repositories. For trusted ones refuted with a null port; the graph without the clone step is refuted with a step that waits for it."
 },
 "C105": {
  "note": "For the files C82 covers. Refuted for others with an empty build section."
 },
 "C106": {
  "note": "Files with a matrix are not covered by the theorem about the commands. Refuted for every file with distinct names with a step called clone."
 },
 "C107": {
  "note": "Transforms that ask others for secrets are not covered: what they are asked for follows the order of the maps. The text of JSON settings is taken not to depend on the order. Refuted without the conditions (C35, C39), for equality instead of sameness, and for the text of the output."
 },
 "C108": {
  "note": "Proved for the files of C82 under the same conditions. C108_reads_signatures shows that every such reader meets the condition on decoders of C05 to C07. C108_format_after_sign_refuted: the same in the other order."
 },
 "C109": {
  "note": "Files with a matrix are not covered. What the flags of the command add afterwards is C87. Refuted for allow_failure and devices."
 },
 "C110": {
  "note": "Files with null jobs, services or steps crash (C61, C62). What the flags of the command add afterwards is C87. Refuted for variables, only, services and allow_failure of a job."
 },
 "C111": {
  "note": "The only condition is that fmt.Sprint writes a float on one line (OneLine), which strconv does. Refuted for files kept under the name of another system."
 },
 "C112": {
  "note": "C112_reads_as_written shows that every reader of C82 meets the condition on decoders. As in C05, no line may end in CR CR. Refuted for the text as a whole: C112_long_line and C112_everything_kept_refuted."
 },
 "C113": {
  "note": "No condition on the yaml decoder except for C113_append_to_signed, which is that of C05. Refuted for joined formatted files and for convert."
 },
 "C114": {
  "note": "The skip and privilege functions of the command are shown to satisfy the condition on them. Refuted for the trigger of the pipeline."
 },
 "C115": {
  "note": "Refuted for acyclic graphs in the wrong order."
 },
 "C116": {
  "note": "Refuted for the callback for secrets, which sees the policies."
 },
 "C117": {
  "note": "Lint accepting and crashing characterised exactly for all pipelines, null entries included; exact crash conditions of the lint and format commands; sign and verify never crash; no crash without null entries; that the commands crash on the same files is refuted."
 },
 "C118": {
  "note": "Lint, the manifest linter and the lint command decided by the first rule of an ordered list that applies, for all inputs including null entries; that every defect is reported is refuted."
 },
 "C119": {
  "note": "C119_grown is the claim, C119_compiles says when the longer pipeline compiles and C119_unread what is never read; the two refuted theorems show that its conditions on builds and dependencies are needed."
 },
 "C120": {
  "note": "C120_alike covers clone, services and ordinary steps, C120_build those that build an image; C120_image_refuted shows why the image needs a condition."
 },
 "C121": {
  "note": "C121_part and C121_manifest give the condition, the _refused theorems the message otherwise; C121_mounts_refuted shows that mounts are not looked at."
 },
 "C122": {
  "note": "Proved for the command and for the compiler; that the presence of a password does show is C122_present_refuted."
 },
 "C123": {
  "note": "C123_command is about the command, C123_skip about the compiler with any two skip functions."
 },
 "C124": {
  "note": "C124_lint and C124_compile; C124_callbacks shows that the hypothesis on callbacks holds for those of the package, C124_clone_refuted why clone must be kept."
 },
 "C125": {
  "note": "C125_manifest, C125_lint, C125_compile and C125_selected; C125_equal_refuted shows why the renaming must be injective."
 },
 "C126": {
  "note": "C126_lint and C126_compile; C126_callbacks shows that the hypothesis on callbacks holds for those of the package, C126_reserved_refuted why known names must be kept."
 },
 "C127": {
  "note": "C127_lint and C127_compile; C127_callbacks shows that the hypothesis on callbacks holds for those of the package, C127_empty_refuted why names must stay non-empty."
 }
}
