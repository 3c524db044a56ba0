#!/usr/bin/env python3
"""Source of /verif/properties.jsonl: run it to regenerate that file."""
import json, os
P = []
def p(title, statement, quantifier, why, *anchors):
    P.append(dict(id="C%02d" % (len(P) + 1), title=title, statement=statement,
                  quantifier=quantifier, why_tests_cant=why, anchors=list(anchors)))

PARSE, SIGN = "yaml/parse.go", "yaml/signer/signer.go"
p("ParseRaw splits a file into exactly its documents",
  "For a file made of an optional first document without a '---' line, any number of documents each introduced by a line starting with '---', and an optional line starting with '...' followed by anything, ParseRaw returns one resource per document, in order, and the Data of each is exactly that document's lines, each ended by one newline. Nothing after the '...' line is looked at, and every file has this shape, so this fixes the result for all inputs.",
  "every byte string whose lines are shorter than 65536 bytes",
  "the input is an arbitrary byte string; tests try eight files",
  PARSE + ":ParseRaw", PARSE + ":isSeparator", PARSE + ":isTerminator")
p("Line endings and the final newline do not matter",
  "Rewriting every LF as CRLF, or ending a last line that has no newline with one, changes neither the resources ParseRaw returns nor the signature Sign computes nor the answer of Verify.",
  "every byte string without CR characters whose lines are shorter than 65535 bytes (for the final newline: every byte string that is not empty and does not end in one), every key",
  "quantifies over all inputs and over where the line ends fall",
  PARSE + ":ParseRaw", SIGN + ":Sign", SIGN + ":Verify")
p("An over-long line silently ends the input",
  "ParseRaw never reports lines longer than 65535 bytes: such a line and everything after it are treated as absent, with no error, so the claim 'every line before the terminator is in some resource or an error is returned' is false; below that length it is true.",
  "every byte string, with every possible tail after the long line",
  "needs all tails and all lengths around the 64 KiB boundary of bufio.Scanner",
  PARSE + ":ParseRaw")
p("Parse keeps every resource, in order, typed by its kind",
  "When Parse succeeds the manifest has exactly one resource per document in document order; kind cron, secret, signature and registry give those types and every other kind gives a pipeline; no resource has an empty kind. If some document has an empty kind, or does not decode, Parse returns an error and no manifest.",
  "every input and every behaviour of the yaml decoder",
  "ranges over all inputs and all decoder results",
  PARSE + ":Parse", PARSE + ":parseRaw", "yaml/manifest.go:UnmarshalJSON")
p("A signed file verifies with the same key",
  "If SignUpdate(data, key) returns a file then Verify(file, key) is true, for every file in which no line ends in two carriage returns. For a file with a line ending in CR CR the claim is false: SignUpdate's own output can fail verification.",
  "every byte string, every key of at least 32 bytes, every MAC function",
  "round trip over all inputs; the CR CR corner needs a search no test does",
  SIGN + ":SignUpdate", SIGN + ":Verify")
p("SignUpdate keeps every other document and leaves one signature, last",
  "The documents of SignUpdate's output are the non-signature documents of the input, unchanged and in order, followed by exactly one signature document carrying the hex of the signature; WriteTo with the value returned by Sign gives the same bytes as SignUpdate.",
  "every byte string with no line ending in two carriage returns, every key",
  "all inputs, including those with several or misplaced signature documents",
  SIGN + ":SignUpdate", SIGN + ":WriteTo", SIGN + ":upsert")
p("Signing twice is the same as signing once",
  "SignUpdate applied to its own output returns that output unchanged, and Sign returns the same value for a file before and after it is signed.",
  "every byte string with no line ending in two carriage returns, every key",
  "idempotence over all inputs",
  SIGN + ":SignUpdate", SIGN + ":Sign")
p("Keys shorter than 32 bytes never sign or verify",
  "With a key of fewer than 32 bytes Sign and SignUpdate return an error and no signature and Verify never returns true; with 32 bytes or more the key is never the cause of an error.",
  "every input and every key length",
  "boundary over all keys and inputs",
  SIGN + ":sign", SIGN + ":Verify")
p("Verify is exactly 'the first signature is the MAC of the rest'",
  "Verify returns true if and only if the file decodes, the first signature document carries a hex string, the key has at least 32 bytes, and that string decodes to the MAC under the key of the concatenated data of all non-signature documents. So if two files verify under one key with the same signature, either their non-signature data concatenate to the same bytes or the MAC collides.",
  "every input, key and MAC function",
  "a decision rule over all inputs; tamper evidence speaks about all modified files",
  SIGN + ":Verify", SIGN + ":extract", SIGN + ":sign")
p("Document boundaries are not signed",
  "The claim 'a file that verifies has the same documents as the file that was signed' is false: the signature covers the concatenation of the documents, so moving or deleting a '---' line keeps the signature valid. What is covered is proved: the concatenated bytes of the non-signature documents.",
  "every way to cut one byte string of lines into documents",
  "a counterexample to a universal claim, plus the exact covered content for all inputs",
  SIGN + ":sign", PARSE + ":ParseRaw")
p("Signatures are case-insensitive hex",
  "Hex decoding inverts hex encoding for all byte strings; a signature written in upper case verifies like the lower-case one, and a string of odd length or with a non-hex character never verifies.",
  "every byte string",
  "unbounded codec round trip",
  SIGN + ":extract", SIGN + ":Sign")

COND = "yaml/cond.go"
p("A condition matches unless excluded or not included",
  "Match(v) is true exactly when no exclude pattern matches v and either there are no include patterns or some include pattern matches v. Excludes win over includes, order and repetition of patterns do not matter, and a pattern that fails to parse never matches.",
  "every pattern list, every value, every glob function",
  "ranges over all pattern lists",
  COND + ":Match", COND + ":Includes", COND + ":Excludes")
p("More patterns act in one direction",
  "Adding exclude patterns never turns a non-match into a match; adding include patterns to a non-empty list never turns a match into a non-match, while adding the first include pattern can.",
  "every condition, value and added pattern",
  "monotonicity over all extensions",
  COND + ":Match")
p("A step is skipped exactly when one of eight conditions fails",
  "SkipFunc(data)(step) is true if and only if at least one of the branch, cron, event, instance, ref, repo, target and action conditions does not match its field of data; status, paths and matrix conditions have no influence.",
  "every container and every build metadata",
  "all combinations of eight conditions",
  "yaml/compiler/skip.go:SkipFunc")
p("The status condition decides the run policy",
  "A compiled step that its other conditions do not skip runs on success iff 'success' matches; runs on failure iff the include list is not empty and 'failure' matches; both give always, neither gives never. In particular a step with no status condition runs only on success, and a step whose status condition only excludes 'success' never runs at all.",
  "every status condition and glob function",
  "all condition lists",
  "yaml/compiler/convert.go:toRunPolicy")

LINT = "yaml/linter/linter.go"
p("Lint accepts exactly the well-formed pipelines",
  "Lint of a pipeline with no nil entries returns no error if and only if: platform os and arch are empty or supported; volumes and mounts do not use a reserved name; step and service names are non-empty, pairwise distinct and (when cloning) different from 'clone'; each container has an image or a build image; every step dependency names an earlier step or the clone step; and, if the repository is not trusted, none of the restricted settings is used.",
  "every pipeline and both trust levels",
  "a decision rule over all pipelines",
  LINT + ":checkPipeline", LINT + ":checkContainer", LINT + ":checkVolumes", LINT + ":checkDeps", LINT + ":checkPlatform")
p("An accepted untrusted pipeline asks for nothing privileged",
  "If Lint accepts a pipeline with trusted=false then no step or service is privileged, has devices, dns, dns_search, extra_hosts, network_mode or a host port, and no volume is a host path or in-memory.",
  "every pipeline",
  "a security guarantee over all inputs",
  LINT + ":checkContainer", LINT + ":checkPort", LINT + ":checkHostPathVolume", LINT + ":checkEmptyDirVolume")
p("Trust only widens what is accepted",
  "A pipeline accepted for an untrusted repository is accepted for a trusted one, and a pipeline rejected for a trusted one is rejected for an untrusted one.",
  "every pipeline and manifest",
  "monotonicity over all inputs",
  LINT + ":Lint", "yaml/linter/config.go:Manifest")
p("Accepted step graphs have no cycle and no dangling dependency",
  "If Lint accepts a pipeline, the depends_on relation between its steps has no cycle and each dependency is a step of the pipeline or the clone step; the order in which steps are written is a valid execution order.",
  "every pipeline, dependency paths of every length",
  "cycles of any length in graphs of any size",
  LINT + ":checkDeps")
p("Accepted manifests have distinct pipelines and no dependency cycle",
  "If the linter's Manifest accepts a manifest, pipeline names are distinct, each pipeline depends only on pipelines listed before it, so there is no dependency cycle; pipelines of kind pipeline and type docker (or empty) have a supported platform. The converse holds too. The cyclic-dependency errors the package declares are returned for step self-dependency only, and ErrCyclicalPipelineDependency never.",
  "every manifest, dependency paths of every length",
  "graphs of any size",
  "yaml/linter/config.go:checkPipelines", "yaml/linter/config.go:checkPipelineDeps")
p("Lint does not crash, except on null entries",
  "Lint and the manifest linter never panic on a resource whose step, service, port, mount and volume lists contain no nil entry. With a nil step (the yaml 'steps: [~]') Lint does panic, so the unrestricted claim is false.",
  "every resource",
  "absence of a crash over all inputs",
  LINT + ":checkPipeline", LINT + ":checkContainer")

IMG = "yaml/compiler/image/image.go"
p("Expand is canonical",
  "Expand is idempotent, an expanded valid name always carries a tag or digest, and names that are not image names are returned unchanged. The claim that an expanded valid name always carries a registry host is false ('a_b.c/d'); it holds unless the first component looks like a host but contains an underscore.",
  "every string",
  "all image references",
  IMG + ":Expand")
p("Trim drops the tag and nothing else",
  "Trim gives the same result for a name, its expansion, and the name with any tag (unless name and tag together read as a content digest); names that are not image names are returned unchanged. The claim that Trim is idempotent is false ('docker.io/docker.io/x'); it holds unless a Docker Hub path starts with another Docker Hub host.",
  "every string and every tag",
  "all image references",
  IMG + ":Trim")
p("Image matching is an equivalence that ignores tags",
  "Match(a, b) is reflexive, symmetric and transitive and independent of tags; MatchTag is an equivalence too and implies Match; Match against a list is the disjunction over the list.",
  "all pairs and triples of strings",
  "relations over all strings",
  IMG + ":Match", IMG + ":MatchTag")
p("Image matching can confuse registries",
  "The claim 'two images that Match come from the same registry' is false: docker.io/foo.bar/baz and foo.bar/baz match although they live on docker.io and foo.bar. It holds whenever the first component of a Docker Hub path is not localhost and contains no dot or colon.",
  "all pairs of image references",
  "needs the exact characterisation over all references",
  IMG + ":Match", IMG + ":Trim", "yaml/compiler/dind.go:DindFunc")
p("Privileged mode by image is limited to plain plugins",
  "DindFunc(images) returns true for a container exactly when it has no commands, no command, no entrypoint, and its image equals one of the listed images up to tag.",
  "every image list and container",
  "all containers",
  "yaml/compiler/dind.go:DindFunc")

COMP = "yaml/compiler/compiler.go"
p("Compile yields clone, then services, then steps",
  "The compiled steps are, in order: the clone step unless cloning is disabled, one step per service, one step per pipeline step, with their names; every service is detached.",
  "every pipeline, compiler configuration without user transform, random source and map iteration order",
  "all pipelines",
  COMP + ":Compile")
p("Dependencies are kept and completed",
  "If no step declares depends_on every compiled step keeps its declared dependencies. If some step does and cloning is enabled, every service additionally depends on clone and every step without dependencies depends on exactly clone; with cloning disabled nothing is added.",
  "every pipeline",
  "all graphs",
  COMP + ":Compile")
p("The compiled graph of an accepted pipeline is executable",
  "If Lint accepts the pipeline and no service declares depends_on, every dependency in the compiled spec names an earlier compiled step or, for a service, the clone step, so the graph is closed and acyclic. With services that declare depends_on the claim is false: Lint accepts a service depending on itself or on nothing that exists.",
  "every pipeline, dependency paths of every length",
  "graphs of any size, across two components",
  COMP + ":Compile", LINT + ":checkDeps")
p("Only asked-for containers are privileged",
  "A compiled step is privileged only if its container says so and is not a build step, or the configured privileged function returns true for it; the clone step never is. For an untrusted accepted pipeline with no privileged function no step is privileged.",
  "every pipeline and compiler configuration without user transform",
  "all pipelines",
  COMP + ":Compile", "yaml/compiler/step.go:createStep", "yaml/compiler/step.go:createBuildStep")
p("Only build steps see the docker socket",
  "A compiled step mounts the volume _docker_socket exactly when it comes from a container with a build section, whatever volumes containers list; the spec has a host volume for the socket exactly when some step has a build section.",
  "every pipeline, default workspace configuration",
  "a security guarantee over all inputs",
  "yaml/compiler/step.go:createStep", "yaml/compiler/step.go:createBuildStep", COMP + ":Compile")
p("An untrusted accepted pipeline reaches the host only through builds",
  "If Lint accepts the pipeline with trusted=false, the compiled spec has no host-path volume except the docker socket, and that one only when a build section exists; no compiled step has dns, dns_search, extra_hosts, network_mode, devices or host ports.",
  "every pipeline, default configuration",
  "linter and compiler together over all inputs",
  COMP + ":Compile", LINT + ":checkPipeline")
p("Every step gets the workspace",
  "With the default configuration every compiled step mounts the workspace volume at the base path, the spec defines that volume as an empty dir, and the six workspace variables hold base, path and full path in every step, even if the yaml sets variables of those names.",
  "every pipeline",
  "all pipelines",
  "yaml/compiler/workspace.go:setupWorkspaceEnv", "yaml/compiler/workspace.go:MountWorkspace", COMP + ":Compile")
p("A step runs unless its conditions say never",
  "A compiled service or step has run policy 'never' exactly when the skip function returns true for its container or its status condition gives never; otherwise its policy is the one of the status condition; the clone step runs on success.",
  "every pipeline and skip function",
  "all pipelines",
  COMP + ":Compile")
p("Environment and settings become variables with a fixed precedence",
  "For a non-build step the compiled value of a variable is, in order of precedence: workspace variable, script variable on windows, setting (PLUGIN_ + upper-case name), environment entry; entries that reference a secret appear as secret variables and never as plain values; null entries are ignored. This does not depend on map iteration order unless two settings differ only in case, in which case it does.",
  "every container, every iteration order of its maps",
  "map iteration order is random at run time; all orders must agree",
  "yaml/compiler/step.go:createStep")
p("working_dir is honoured only for detached steps without commands",
  "The compiled working directory is the container's working_dir when the container is detached and has no commands; otherwise, for a step or a service with commands it is the workspace path whatever working_dir says, and for a service without commands that is not itself marked detached it is empty. So the claim 'working_dir is the working directory of the step' is false.",
  "every container",
  "decision table over all containers",
  "yaml/compiler/step.go:createStep", "yaml/compiler/workspace.go:setupWorkingDir")
p("Commands run in order, after 'set -e' and after credentials are unset",
  "On non-windows platforms a container with commands gets a script file whose text is the fixed header ending in 'set -e' followed by, for each command in order, an echo line and the command verbatim, and is run with /bin/sh; on windows the same holds with the base64 of the script in CI_SCRIPT. A container without commands gets no script and keeps its own entrypoint and command.",
  "every command list",
  "all command lists and contents",
  "yaml/compiler/script_posix.go:setupScript", "yaml/compiler/script_win.go:setupScriptWin")
p("Every mounted file exists",
  "Every file mount of every compiled step names a file of the compiled spec; for an accepted pipeline whose names differ from '.git-credentials' it names exactly one.",
  "every pipeline",
  "all pipelines",
  "yaml/compiler/script_posix.go:setupScript", "yaml/compiler/clone.go:setupCloneCredentials")
p("Images are fully qualified and references to built images are rewritten",
  "The image of a step is the expansion of the container's image, except that an image equal (including tag) to one built by the pipeline becomes the built alias name:uid of that build step. If no two build sections name equivalent images this does not depend on map iteration order; if two do, it does, so determinism fails in general.",
  "every pipeline, every iteration order",
  "random map order",
  COMP + ":Compile", "yaml/compiler/step.go:createBuildStep")
p("Identifiers are distinct and the namespace is shared",
  "If the random source never repeats, all UIDs in the compiled spec (spec, volumes, steps, files) are pairwise distinct, and every volume, step and file carries the spec's namespace.",
  "every pipeline and random source",
  "all pipelines, all random values",
  COMP + ":Compile", "yaml/compiler/step.go:createStep")
p("Random names have 32 characters from an unbiased alphabet",
  "A generated identifier has 32 characters from a-z0-9, taken from the accepted random bytes in order; each character has exactly seven accepted byte values, so uniform bytes give uniform characters. Bytes are read forty at a time: one read is enough exactly when at most eight of its bytes are rejected.",
  "every random byte stream",
  "all streams",
  "yaml/compiler/internal/rand/rand.go:String")
p("The workspace path is clean and below its base",
  "The full workspace path is the lexically cleaned join of base and path; for an absolute base it is absolute, and it stays below the base when path contains no '..' component. On windows no forward slash is left and drive c: is prefixed.",
  "every base and path",
  "all strings",
  "yaml/compiler/workspace.go:createWorkspace", "yaml/compiler/workspace.go:toWindowsDrive")

T = "yaml/compiler/transform/"
p("Include, Exclude and ResumeAt never re-enable a step and never touch clone",
  "Include(names) sets exactly the non-clone steps outside names to never; Exclude(names) exactly the non-clone steps in names; ResumeAt(name) exactly the non-clone steps before the first step with that name (all of them if there is none, services included); empty arguments change nothing; nothing but the run policy changes.",
  "every spec and name list",
  "all specs",
  T + "filter.go:Include", T + "filter.go:Exclude", T + "filter.go:ResumeAt")
p("Secrets are requested exactly for steps that can run",
  "WithSecretFunc calls the callback exactly once for each distinct secret name used by a step whose run policy is not never, and appends exactly the non-nil results, stamped with the spec namespace, leaving all else unchanged; the set of results does not depend on map order.",
  "every spec, callback and iteration order",
  "all specs and orders",
  T + "secret.go:WithSecretFunc")
p("Environment transforms overwrite exactly their keys in every step",
  "WithEnviron sets each given key in every step to the given value and leaves every other key and field alone, whatever the map order, and is idempotent; WithNetrc sets exactly the six netrc variables and does nothing when the user name or password is empty; WithProxy sets exactly both spellings of the proxy variables that are set.",
  "every spec and variable map, every order",
  "all maps and orders",
  T + "env.go:WithEnviron", T + "netrc.go:WithNetrc", T + "proxy.go:WithProxy")
p("Resource limits replace both limits",
  "WithLimits(mem, cpu) with either non-zero sets both limits of every step to exactly (mem, cpu) and keeps requests; so a memory limit alone erases a CPU limit written in the yaml. With both zero nothing changes.",
  "every spec and limits",
  "all specs",
  T + "limits.go:WithLimits")
p("Labels, networks, auths, secrets and volumes are added, nothing is removed",
  "WithLables sets the labels on the spec, every docker volume and every step; WithNetworks, WithAuths, WithAuthsFunc, WithSecrets and WithVolumes append; existing entries stay, in order. WithVolumes adds one host volume and one mount per step for each pair; WithVolumeSlice uses exactly the entries with one colon.",
  "every spec, map and iteration order",
  "all specs and orders",
  T + "labels.go:WithLables", T + "network.go:WithNetworks", T + "auths.go:WithAuths", T + "secret.go:WithSecrets", T + "volume.go:WithVolumes")
p("Labelling crashes with a host workspace",
  "The claim 'applying transforms to any compiled spec does not panic' is false: WithLables with a non-empty map panics on a spec compiled with CreateHostWorkspace, whose host volume has no label map. It is true for specs compiled with the default workspace.",
  "every compiled spec and label map",
  "absence of panics over all compiled specs",
  T + "labels.go:WithLables", "yaml/compiler/workspace.go:CreateHostWorkspace")
p("Combine is sequential composition",
  "Combine(f1..fn) applies f1 to fn in order, Combine() is the identity, and nesting does not matter.",
  "every list of transforms",
  "all lists of functions",
  T + "combine.go:Combine")

U = "yaml/"
p("A condition decodes from every yaml form",
  "A when/trigger entry written as a scalar s gives include [s], as a list gives that include list, as a mapping gives its include and exclude lists; decoding a condition never fails, and entries of other shapes give an empty condition that matches everything.",
  "every yaml node",
  "all yaml trees",
  "yaml/cond.go:UnmarshalYAML")
p("Environment values and settings decode as a literal or a secret reference",
  "An environment entry decodes from any scalar to its literal text or from a mapping with from_secret to a secret reference; a setting with a mapping that has a non-empty from_secret becomes a secret reference and nothing else does, other values being kept as they are; marshalling and decoding again gives the same entry except that an empty literal becomes null.",
  "every yaml node and every entry",
  "all yaml trees",
  "yaml/env.go:UnmarshalYAML", "yaml/env.go:MarshalYAML", "yaml/param.go:UnmarshalYAML", "yaml/param.go:MarshalYAML")
p("Ports, builds and pushes decode from short and long forms",
  "A port written as an integer is a container port without host port, a build written as a scalar is an image, a push written as a scalar is an image; the long mapping forms set the fields of the same names; anything else is an error; decoding the marshalled form gives the value back.",
  "every yaml node and every value",
  "all yaml trees",
  "yaml/port.go:UnmarshalYAML", "yaml/build.go:UnmarshalYAML", "yaml/push.go:UnmarshalYAML")
p("Validation accepts exactly complete resources",
  "Lint accepts a cron iff its branch is not empty, a secret iff it has data, a get path or a get name (a get key alone is not enough), a signature iff its hmac is not empty, a registry iff its data are not empty; trust does not matter for these.",
  "every resource",
  "decision rules over all resources",
  "yaml/cron.go:Validate", "yaml/secret.go:Validate", "yaml/signature.go:Validate", "yaml/registry.go:Validate")

MX = "yaml/converter/legacy/matrix/matrix.go"
p("The matrix enumerates the cartesian product",
  "For a matrix of at most twelve axes, all non-empty, whose product is at most twenty-seven, a converted matrix has exactly one entry per element of the cartesian product, each once, whatever the map order; beyond the limits it has the first twenty-seven entries of that enumeration.",
  "every matrix and map order",
  "product of any number of axes; mixed-radix arithmetic",
  MX + ":calc")
p("An empty matrix axis crashes or not depending on map order",
  "The claim 'matrix conversion does not panic' is false: with axes A non-empty and B empty, the conversion panics with a division by zero for one map order and returns no entry for another. Without empty axes it never panics.",
  "every matrix, every map order",
  "random map order at run time",
  MX + ":calc")
LG = "yaml/converter/legacy/internal/config.go"
p("Legacy conversion keeps containers in order",
  "The converted pipeline has the clone containers, then the pipeline containers as steps, and the services, in file order, with every listed attribute carried over; step names are kept unless an earlier step has the name, in which case the index is appended.",
  "every legacy configuration",
  "all configurations",
  LG + ":Convert", LG + ":toContainer")
p("De-duplicated names can still collide",
  "The claim 'converted steps have distinct names' is false: names a_2, a, a give a_2 twice, and Lint then rejects the result. It is true when no step name ends in an underscore and a number.",
  "every list of names",
  "counterexample to a universal claim plus a proof for the rest",
  LG + ":Convert")
p("Legacy secrets, environment and volumes convert without loss",
  "Legacy secret targets become upper-case variables referencing the source and win over literal variables of that name; every mounted volume of a step or service has exactly one matching host volume in the pipeline and volume names are the hex of the source, so distinct sources never collide; secrets come out sorted by name.",
  "every legacy configuration, every map order",
  "all configurations and orders",
  LG + ":toEnvironment", LG + ":toVolumes", LG + ":toVolumeMounts", LG + ":toSecrets")
p("Branch filters keep tag builds alive",
  "With branches included and none excluded the converted trigger has no branch filter but a ref filter that lists the pull, merge and branch refs, and the tag refs exactly when some step is limited to tag events; otherwise the branch filter is copied.",
  "every legacy configuration",
  "all configurations",
  LG + ":Convert")
p("Matrix step filters are a disjunction",
  "A step with a matrix condition appears in the pipeline of an axis once per matching key, so it is dropped only when no key matches; the claim that it appears iff all keys match is false, and a step can appear twice.",
  "every step, axis and map order",
  "all maps",
  LG + ":Convert")
p("GitLab stages become chained pipelines",
  "With stages given, GitLab conversion yields one pipeline per stage in order, each depending on the previous one, containing exactly the jobs of that stage with before, script and after commands in order; jobs of stages that are not listed are dropped. Without stages each job becomes one pipeline.",
  "every configuration, every map order",
  "all configurations and orders",
  "yaml/converter/gitlab/convert.go:Convert")
p("Bitbucket selects one matching pipeline",
  "Bitbucket conversion uses a tag pipeline whose pattern matches, else a branch pipeline whose pattern matches, else the default; with at most one matching pattern the choice does not depend on map order, with two it does. Steps keep order, unnamed ones are called step_ and their index, and steps without image use the global one.",
  "every configuration, ref and map order",
  "random map order",
  "yaml/converter/bitbucket/config.go:Pipeline", "yaml/converter/bitbucket/convert.go:Convert")
p("Files that need no conversion are returned unchanged",
  "Convert returns its input unchanged for every file that is not named like a Bitbucket or GitLab configuration and has no line consisting of 'pipeline:' and white space; the open-source build returns every file unchanged.",
  "every byte string and metadata",
  "all inputs",
  "yaml/converter/convert.go:Convert", "yaml/converter/legacy/match.go:Match", "yaml/converter/convert_oss.go:Convert")

PR = "yaml/pretty/"
p("Printed strings read back",
  "A string scalar printed by the pretty printer is read back by a yaml reader as the same string: plain scalars are only used for strings that a yaml reader takes literally, all others are double-quoted with an escape sequence the reader inverts. The boundary strings for which this fails are characterised.",
  "every string",
  "all strings",
  PR + "util.go:isQuoted", PR + "writer.go:writeEncode")
p("Pretty-printed manifests keep every document but registries",
  "The printed manifest has one document per pipeline, cron, secret and signature in order, separated by '---' and ended by '...'; registry resources are dropped, so the claim that formatting keeps all resources is false.",
  "every manifest",
  "all manifests",
  PR + "pretty.go:Print")
p("Indentation is balanced",
  "Every printer leaves the writer at the depth it found it, whatever the data, so sibling entries are printed at the same indentation.",
  "every value of every resource type",
  "all trees",
  PR + "writer.go:Indent", PR + "writer.go:Unindent", PR + "container.go:printContainer")
p("Printing crashes on null environment entries and settings",
  "The claim 'formatting a parsed file does not panic' is false: an environment entry or setting that is null in the yaml makes the printer panic. Without null entries it never panics.",
  "every resource",
  "absence of panics over all inputs",
  PR + "container.go:printEnviron", PR + "container.go:printSettings")
p("Secret data survive line breaking",
  "The printed encrypted data of a secret, with line breaks and indentation removed, equal the data with spaces and newlines removed, and no line is longer than the chunk size.",
  "every string",
  "all lengths",
  PR + "secret.go:printData", PR + "util.go:chunk")
p("The convert command never saves",
  "The claim 'convert --save overwrites the file' is false: the convert command looks at the fmt command's flag, so it never writes the file.",
  "every command line and file",
  "a universal claim about the command line state",
  "main.go:runConvert")

IM = "yaml/compiler/image/image.go:"
p("MatchHostname tells the registry",
  "MatchHostname(image, host) is true exactly when the image is a valid name on that registry host, index.docker.io standing for docker.io; names that are not image names match no host, and an image matches at most one host other than that alias.",
  "all pairs of strings",
  "all image references and hosts",
  IM + "MatchHostname")

p("A document means exactly what its keys say",
  "For a document whose yaml tree has no duplicate keys, Parse gives a resource exactly when every known key holds a value of the right shape, and then every field of the resource is the value of its key, or the zero value when the key is absent or null; the kind selects cron, secret, signature or registry, everything else is a pipeline.",
  "every yaml tree, every resource",
  "all trees, all field combinations",
  "yaml/parse.go:parseRaw", "yaml/pipeline.go:Pipeline", "yaml/pipeline.go:Container", "yaml/cron.go:Cron", "yaml/secret.go:Secret", "yaml/registry.go:Registry", "yaml/signature.go:Signature", "yaml/unit.go:UnmarshalYAML")
p("Key order and unknown keys do not matter",
  "Reordering the keys of a pipeline or of a step does not change the decoded value, and a key the package does not know is ignored whatever it holds, so a misspelled key is not reported.",
  "every yaml mapping, every permutation, every unknown key and value",
  "all trees and permutations",
  "yaml/pipeline.go:Pipeline", "yaml/pipeline.go:Container")
p("Null steps are parsed and crash the linter",
  "A null entry in the steps list of a document gives a nil step of the parsed pipeline and nothing else does; so the claim 'a pipeline that Parse returns can be linted without a panic' is false.",
  "every yaml tree",
  "all trees",
  "yaml/parse.go:Parse", "yaml/linter/linter.go:Lint")

p("Matrix variables are replaced all at once",
  "When a legacy configuration has a matrix, each pipeline text has every ${NAME} of the combination replaced by its value, values of several lines quoted, and all other text kept; the result does not depend on the order of the variables. Both hold when neither names nor shown values contain a dollar sign or a brace; the unconditional claim is false, since a value that is itself ${NAME} is replaced or not depending on map order.",
  "every text, combination and map order",
  "map iteration order is random, and texts and combinations are unbounded",
  "yaml/converter/legacy/internal/config.go:Convert")
CC = "yaml/compiler/"
p("Compile succeeds exactly on pipelines without null entries",
  "Compile returns a spec exactly when no step, service or volume is null, and no port or mount of a container that is not a build step is null; null environment entries and settings are skipped; otherwise it panics, and it never does anything else.",
  "every pipeline, every standard compiler configuration",
  "totality over all pipelines",
  CC + "compiler.go:Compile", CC + "step.go:createStep", CC + "convert.go:toPorts")
p("Container fields are carried over, and the files are exactly those needed",
  "Ports, dns, extra hosts, network, user, pull policy, failure and resources of a step are those of its container; build and clone steps have none of them; the spec carries the pipeline's name, kind, type and platform; its files are the git credentials and the scripts of the containers with commands, in order. The claim that a build step keeps its environment, commands and ports is false.",
  "every pipeline that compiles",
  "all field combinations",
  CC + "step.go:createStep", CC + "step.go:createBuildStep", CC + "compiler.go:Compile", CC + "clone.go:createClone")
p("The clone step",
  "The image of the clone step follows the platform as documented (drone/git, linux-arm, linux-arm64, windows versions, 1809 by default), and the git credentials are mounted at /root/.git-credentials exactly when there are any.",
  "every pipeline and configuration",
  "all platforms",
  CC + "clone.go:cloneImage", CC + "clone.go:createClone", CC + "clone.go:setupCloneCredentials")
p("Trace lines print the command",
  "The echo line before a command is one line with one double-quoted shell word whose value is the command, for printable commands without a backquote; different commands have different trace lines; on Windows it is one single-quoted string when the command has no single quote; the CI_SCRIPT variable decodes to the script. Unconditionally the claim is false: a backquote in a command is evaluated by the trace line, and a single quote ends the PowerShell string.",
  "every command",
  "all strings",
  CC + "script_posix.go:setupScript", CC + "script_win.go:setupScriptWin", CC + "script_posix.go:traceScript", CC + "script_win.go:traceScript")
p("Settings as text",
  "A string setting is passed verbatim, a boolean as true or false, an integer as its decimal numeral, a list of scalars as their texts separated by commas, anything else as JSON. A list of strings without commas can be recovered from the text; without that condition the encoding is ambiguous.",
  "every setting value",
  "all nested values",
  CC + "encode.go:encode", CC + "encode.go:encodeSlice", CC + "encode.go:encodeMap")
p("CPU limits in thousandths",
  "Memory limits are carried over; a CPU limit becomes the integral part of a thousand times the number, up to a relative error of one in 2^52, and exactly a thousand times the number when that is an integer. The claim that n.nnn CPUs become nnnn thousandths is false: 1.001 gives 1000.",
  "every normal double with a fractional exponent, every pipeline",
  "all doubles",
  CC + "convert.go:toResources", CC + "convert.go:toResourceObject", CC + "convert.go:toCPUMillis")
p("Every mount leads to one volume",
  "The volumes of a spec are the workspace, the host workspace if any, the declared volumes in order, and the docker socket if something is built. If the linter accepts the pipeline, its volume names are distinct and none is 'host' (with a host workspace), and its mounts are declared, then names are distinct and every mount names a volume. The linter does not ensure those conditions: undeclared mounts, duplicate volumes and a volume named 'host' are accepted.",
  "every pipeline that compiles",
  "all pipelines",
  CC + "compiler.go:Compile", CC + "step.go:createStep", "yaml/linter/linter.go:checkVolumes")
PP = "yaml/pretty/"
p("Formatted files parse back to the same resources",
  "Formatting a manifest and parsing the text gives the same resources in the same order: maps come back sorted by key, an empty platform as linux/amd64, secret data with blanks between its lines and a newline at the end, everything else unchanged. The manifests this holds for are characterised: readable strings, no null entries, nothing empty that the formatter leaves out. Unconditionally the claim is false: strings that look like numbers change type, variables with an empty value and matrix conditions are lost.",
  "every manifest of readable resources, every resolution of plain scalars that keeps their text",
  "all manifests",
  PP + "pretty.go:Print", PP + "pipeline.go:printPipeline", PP + "container.go:printContainer", PP + "writer.go:WriteTagValue", "yaml/parse.go:Parse")
p("Formatting twice changes nothing",
  "Formatting the parsed result of a formatted file gives the same bytes, for the same manifests; a step whose only variable has an empty value is a counterexample without the condition.",
  "every manifest of readable resources",
  "all manifests",
  PP + "pretty.go:Print", PP + "container.go:printEnviron", PP + "container.go:printSettings")
p("Only the save flags write, and only the source file",
  "A command changes a file only if it is 'fmt --save' or 'sign --save', exits with status 0, and the file is its source. 'fmt --save' replaces the source by the formatted text, without --save the text goes to standard error; a file that does not parse exits with 1, one the printer crashes on with 2, and both leave the file alone. Saving twice is saving once for formattable files.",
  "every command line, file system and file content",
  "all commands and contents",
  "main.go:runFormat", "main.go:runSign", "main.go:main")
p("The sign and verify commands agree",
  "After a successful 'sign --save' the verify command succeeds with the same key (for files without a line ending in two carriage returns); verify exits with 0 exactly if the signature is valid and with 1 otherwise, and never crashes; sign without --save prints the signature and changes nothing.",
  "every file content and key, every 32-byte MAC, every decoder that reads signature documents",
  "all files and keys",
  "main.go:runSign", "main.go:runVerify", "yaml/signer/signer.go:SignUpdate")
p("The lint command checks each resource, not the manifest",
  "The lint command exits with 0 exactly if the file parses and every resource passes Lint in the given mode; it changes and prints nothing then. Whatever the command, a failure leaves all files and standard output alone and prints one message, and a success prints nothing to standard error except the result of fmt and convert. The claim that it also checks pipeline names and dependencies across the file is false.",
  "every file content",
  "all files",
  "main.go:runLint", "yaml/linter/linter.go:Manifest")
p("The compile command",
  "The compile command picks the first pipeline with the given name (any, if none is given), drops the clone step unless --clone is given, and prints the compiled pipeline with the registries, labels, networks, secrets, volumes and memory limit of the command line added to every step. A variable of a step is taken from the proxy settings, else the netrc flags, else the commit flags, else --env, else the pipeline. It exits with 1 exactly if there is no such pipeline or a registry lacks a password, and crashes exactly on null entries. That --env variables are kept and that only accepted pipelines are compiled is false.",
  "every manifest, every set of flags, every iteration order of the maps",
  "all flags and pipelines",
  "main.go:runCompile", "main.go:defaultEnvs", "main.go:defaultCreds")
YC = "yaml/converter/"
p("Every key of a 0.8 file means what it should",
  "Reading a 0.8 file succeeds exactly if the file is well formed, and each field is the one written: strings and lists of strings are interchangeable, environments are maps or key=value lines (later lines win, other lines are skipped), volumes are source:destination with the mode ro read only, secrets are names or source/target pairs, every other key of a step is a plugin setting, steps keep their order and take their key as name. Conversion fails exactly on files that are not well formed, and expands merge keys first if there are any. A constraint that cannot be read is dropped without an error.",
  "every yaml tree with distinct keys",
  "all yaml trees; the tests decode a few files",
  YC + "legacy/internal/config.go:Convert", YC + "legacy/internal/container.go:UnmarshalYAML", YC + "legacy/internal/constraint.go:UnmarshalYAML", YC + "legacy/internal/slice_map.go:UnmarshalYAML", YC + "legacy/internal/volume.go:UnmarshalYAML", YC + "legacy/internal/secret.go:UnmarshalYAML")
p("Every key of a GitLab file means what it should",
  "Reading .gitlab-ci.yml succeeds exactly if it is well formed and gives each field as written: images as names or mappings, scripts as strings or lists, every key that is no setting as a job. Conversion fails exactly on files that are not well formed.",
  "every yaml tree with distinct keys",
  "all yaml trees",
  YC + "gitlab/config.go:UnmarshalYAML", YC + "gitlab/convert.go:Convert")
p("Every key of a Bitbucket file means what it should",
  "Reading bitbucket-pipelines.yml succeeds exactly if it is well formed and gives each field as written: the stages for branches, tags and the default, of each stage the elements under the key step, the services, the clone depth. Conversion fails exactly on files that are not well formed.",
  "every yaml tree with distinct keys",
  "all yaml trees",
  YC + "bitbucket/config.go:UnmarshalYAML", YC + "bitbucket/convert.go:Convert")
p("Every key of a JSON manifest means what it should",
  "Reading a JSON document into a manifest succeeds exactly if it is null or a list of well formed resources, and appends those resources to the ones the manifest has: the kind of an object decides its type (a pipeline if the kind is unknown), keys are found in any case, absent and null entries are zero values, unknown keys are ignored, numbers are 64-bit integers spelled without fraction or exponent, variables and settings are objects with a value or a secret, numbers in settings are floats.",
  "every JSON tree without keys that differ in case only, every reading of float literals",
  "all JSON trees; the tests read six golden files",
  "yaml/manifest.go:UnmarshalJSON")
p("The JSON form of a manifest",
  "Writing a manifest as JSON gives one object per resource, with the entries of its type in order and without the empty ones (structs, the kind and hmac of a signature, the version of a registry, and the cpu and memory of a resource are always there), maps in the order of their keys, null for null list entries, and every byte that is no UTF-8 replaced by U+FFFD. It succeeds exactly if no setting is or contains a mapping and no number is infinite or undefined, and fails with an error, never a panic, otherwise. That every manifest can be written is false: one setting that is a mapping prevents it.",
  "every manifest with unique map keys, every spelling of floats",
  "all manifests; no test writes JSON",
  "yaml/manifest.go:MarshalJSON", "yaml/param.go:Parameter", "yaml/registry.go:Registry")
p("JSON round trip of manifests",
  "A manifest written as JSON and read back is the same manifest, except that texts are valid UTF-8, maps are in the order of their keys and integers in settings are the nearest float64, provided each resource has the kind of its type. Without that proviso a cron job comes back as a pipeline, and two different integers in settings can come back as the same value.",
  "every manifest of Go values that can be written, every spelling of numbers that is read back",
  "all manifests; no test does the round trip",
  "yaml/manifest.go:MarshalJSON", "yaml/manifest.go:UnmarshalJSON")
p("The yaml form of a manifest",
  "Encode succeeds for every manifest and writes one document per resource, in order, with a separator line between them, such that ParseRaw yields exactly these documents. Each document, and each step and service in it, has every key of its type in the order of the struct, even if the value is empty; null entries of lists are null; maps are in the order of their keys.",
  "every manifest, every yaml emitter whose documents consist of short lines that are no separators, every order of keys",
  "all manifests; no test calls Encode",
  "yaml/manifest.go:Encode")
p("Yaml round trip of manifests",
  "A manifest written with Encode and read with Parse is the same manifest, up to the order of maps, provided each resource has the kind of its type and the kind is not empty, except that a variable without value and secret and a setting that is empty or null come back as null, the value beside a secret is dropped, and floats in settings that are whole may come back as integers. That all values come back is false.",
  "every manifest of Go values without negative zeros and without literal settings that are mappings with a from_secret entry, every yaml emitter and reader such that the documents are read back",
  "all manifests; no test calls Encode",
  "yaml/manifest.go:Encode", "yaml/parse.go:Parse", "yaml/env.go:MarshalYAML", "yaml/param.go:MarshalYAML")
p("What a size with a unit is worth",
  "A memory size is read exactly if it is a decimal number with an optional fraction, an optional space, an optional unit k, m, g, t or p in either case, an optional i and an optional b; it is worth the number, rounded to double precision, times the power of 1024 of the unit, without its fraction. Whole numbers below 2^53 are exact. That the value never wraps is false: 8192P is negative.",
  "every text; every whole number, every spelling of every unit",
  "all texts and numbers; the tests try three",
  "yaml/unit.go:UnmarshalYAML")
p("How sizes are written and read back",
  "A size is written with four significant digits in the greatest unit of which there is at least one. Multiples 0 to 1023 of a unit up to PiB are written exactly and read back exactly; any size from 0 below 2^60-64 is read back with an error of at most one byte and one part in 1999, and no other size can be read back. That formatting a file keeps its memory limits, that formatting it twice is the same as once, and that a formatted file can be parsed are false.",
  "every 64-bit size, every multiple of every unit",
  "all 64-bit integers; the tests try three",
  "yaml/unit.go:String", "yaml/pretty/container.go:printResources")
p("The formatted text of a file, exactly",
  "Print writes one document per resource that is no registry: a line with three dashes and then the entries of the resource in a fixed order, empty ones left out, two blanks of indentation per mapping within a mapping, sequences at the margin of their key, maps in the order of their keys, a blank line after each step and each group of a pipeline; three dots at the end. Short forms are used for builds with only an image, for ports with only a number and for conditions without exclusions. That settings keep their values is false: a mapping with a number as key loses its value, a number of 2^63 or more is left out and formatting the result panics.",
  "every manifest without null entries that Print would panic on, with 64-bit integers and distinct map keys, every spelling of floats and sizes",
  "all manifests; the tests compare some golden files",
  "yaml/pretty/pretty.go:Print", "yaml/pretty/pipeline.go:printPipeline", "yaml/pretty/container.go:printContainer", "yaml/pretty/writer.go:WriteTagValue", "yaml/pretty/cron.go:printCron", "yaml/pretty/secret.go:printSecret", "yaml/pretty/signature.go:printSignature")
p("Which strings the formatter quotes",
  "A string is written as a Go string literal exactly if it is empty, starts or ends with unicode white space, starts with one of ,[]{}*\"'%@`|>#, starts with one of &!-:? and a blank, contains a control character from 7 to 13, a colon before a blank or a blank before a hash, or ends with a colon. All others are written as they are.",
  "every byte string",
  "all strings; the tests try a few dozen",
  "yaml/pretty/util.go:isQuoted", "yaml/pretty/writer.go:writeEncode")
p("What a Bitbucket pattern matches",
  "A tag or branch pattern matches a ref exactly if the pattern is well formed and its meaning includes the whole name: a star stands for any text without a slash, a question mark for any character but a slash, a class for one of its characters, anything else for itself. Branches are matched by the branch patterns only, as long as the tag patterns have no class and at most one slash. False beyond ASCII, where a star may end within a character, and for classes with a slash between two stars.",
  "every pattern and every name of ASCII characters; every name in UTF-8 for completeness and for patterns in which stars are followed by literals; every configuration and map order",
  "all patterns and names; the tests of the converter use one pattern",
  "yaml/converter/bitbucket/config.go:Pipeline")
p("Where a converted pipeline puts the repository",
  "A 0.8 file converted with a clone URL scheme://user@host:port/path?query#fragment, without a path of its own, gets the workspace src/host/path: no user, no port, no query, escapes resolved, a slash at either end removed; the base is the one of the file or /drone. For kubernetes it is /drone/src/host/path. An address user@host:path, or one without //, gives src. A host is found only in texts with these parts: a scheme, printable characters, well-formed escapes, a numeric port; it never contains a slash. That the workspace stays below /drone is false: the path of the URL may contain '..'.",
  "every URL of the given syntax, every converse text, every 0.8 file that converts, every environment",
  "all URLs; the tests use four",
  "yaml/converter/legacy/internal/config.go:toWorkspacePath", "yaml/converter/legacy/internal/config.go:Convert")
p("What a condition's pattern matches",
  "A well-formed pattern matches a value exactly if its meaning includes the whole value: within the parts between slashes a star stands for any text, a question mark for any character, a class for one of its characters, braces for one of their options and anything else for itself; a part of two stars stands for any number of parts, at the end for at least one. A condition accepts a value exactly if no exclude pattern means it and some include pattern does, or there is none. Patterns without special characters match only themselves; name/** everything below name, name* everything that starts with name and has no further slash, ** everything. That name/** matches name is false.",
  "every pattern of this syntax without two stars in a row inside a part, every UTF-8 value without a backslash before a slash, every condition",
  "all patterns and values; the tests use a handful",
  "yaml/cond.go:Match", "yaml/cond.go:Includes", "yaml/cond.go:Excludes")
p("Which refs trigger a converted pipeline",
  "A pipeline converted from a 0.8 file with included and without excluded branches is triggered by a ref exactly if it is refs/heads/x and one of the branch patterns matches x, or it is below refs/pull/, refs/pull-requests/ or refs/merge-requests/, or it is below refs/tags/ and some step of the pipeline is limited to tag events; nothing else but the ref matters. If the branches are plain names, x has to be one of them. That only the listed branches are built is false: proposed changes are built whatever branches are listed.",
  "every 0.8 configuration without null entries, every ref",
  "all configurations and refs; the tests compare some converted files",
  "yaml/converter/legacy/internal/config.go:Convert", "yaml/cond.go:Match")
p("What lint accepts for an untrusted repository, compile compiles without letting it near the host",
  "If the lint command accepts a file for an untrusted repository, the compile command never panics on it, and succeeds exactly if the file has the pipeline asked for and every registry has a name and a password. The spec it prints configures no dns, extra hosts, network mode, devices or host ports; a step is privileged only if its image is one of those given on the command line and it runs no commands of its own; host paths are those given on the command line and the socket of the docker daemon, mounted by build steps only. The steps can be run in their order, if services wait for nothing and steps do not wait for a clone step that is turned off. In a trusted repository compile may panic on an accepted file (a null port), and without --clone a step may wait for a clone step that is not there.",
  "every file, every pipeline name, all flags of the command, every environment",
  "all accepted files; nothing in the repository tests lint and compile together",
  "main.go:runLint", "main.go:runCompile", "yaml/linter/linter.go:Lint", "yaml/compiler/compiler.go:Compile")
p("Formatting a file does not change what lint says",
  "If a file is formatted and the result saved, lint says of every resource, and of the file as a whole, exactly what it said before: the same verdict with the same message, whether the repository is trusted or not. The lint command ends with the same status and prints the same. False for files the formatter does not preserve: an empty build section, which lint refuses, is dropped.",
  "every file whose resources can be formatted (C82), every yaml reader that resolves plain scalars as yaml does, trusted or not",
  "all files; nothing in the repository tests fmt and lint together",
  "main.go:runFormat", "main.go:runLint", "yaml/pretty/pretty.go:Print", "yaml/linter/linter.go:Lint", "yaml/linter/config.go:Manifest")
p("Which converted files lint accepts",
  "Lint accepts the pipeline converted from a 0.8 configuration exactly if every container has a name and an image; the names of the steps, made distinct by appending the index, differ from each other, from those of the services and, unless the configuration clones itself, from 'clone'; and, in an untrusted repository, no container asks for privileges, dns or extra hosts, and no step or service mounts a volume. A secret is accepted exactly if it says where it is. So the text printed by the convert command, saved in a file, passes the lint command exactly if the old file was like that. That every file with distinct names passes is false: a step may be called clone.",
  "every 0.8 configuration that converts; for files, those without a matrix whose conversion can be formatted (C82); every environment, trusted or not",
  "all configurations; nothing in the repository checks converted files",
  "yaml/converter/legacy/internal/config.go:Convert", "yaml/linter/linter.go:Lint", "main.go:runConvert", "main.go:runLint")
p("Compiling does not depend on the order of maps, nor on formatting",
  "Two pipelines that differ only in the order of the entries of their environments, settings and build sections, at any depth, compile to the same spec, whatever order maps are visited in: the same steps with the same names, identifiers, images, scripts, dependencies, mounts and policies, environments with the same variables, and the same secrets, if no two settings differ only in case and no two build sections name the same image. The transforms keep this. So if a file is formatted and saved, the compile command ends with the same status and message, and prints such a spec. The specs need not be equal: the secrets of a step come in the order of the maps, and a default platform is spelled out by the formatter.",
  "every pipeline with these conditions, every order of maps, every list of transforms that ask nobody for secrets; for files, every file whose resources can be formatted (C82), all flags of the command",
  "all pipelines and all orders; Go picks the order at random, so a test sees one of them",
  "yaml/compiler/compiler.go:Compile", "yaml/compiler/step.go:createStep", "main.go:runFormat", "main.go:runCompile", "yaml/pretty/pretty.go:Print")
p("Signing a formatted file gives a formatted file",
  "If a file is formatted and then signed, the result is what the formatter prints for the configuration without its signatures followed by the new one. So formatting it once more changes nothing, and it still verifies: after fmt --save, sign --save and fmt --save the verify command succeeds, and the second fmt leaves the file as it was. The order matters: if a file that is not formatted is signed first, formatting it invalidates its signature.",
  "every file whose resources can be formatted (C82), every key of at least 32 bytes, every MAC of 32 bytes, every yaml reader that resolves plain scalars as yaml does",
  "all files and keys; nothing in the repository tests the formatter and the signer together, and the signature is written by two pieces of code that do not know of each other",
  "main.go:runFormat", "main.go:runSign", "main.go:runVerify", "yaml/pretty/pretty.go:Print", "yaml/signer/signer.go:SignUpdate", "yaml/signer/signer.go:Verify")
p("A converted 0.8 file runs the same containers",
  "A 0.8 configuration, converted and compiled, runs its containers: the clone step, unless it is turned off or the configuration clones itself, then the services, detached, then the containers of the clone section and of the pipeline in their order, none waiting for another by name. A container has the image of the old file, its entrypoint and command, or a script of its commands; its variables, those of its settings as PLUGIN_ variables, and its secrets under their upper-cased targets, the last one for a target; its pull policy, dns and extra hosts; it runs on success and failure as its status conditions say; a volume source:target of a step or service is mounted at target and shows the directory source of the host. So the convert command followed by the compile command on what it printed succeeds and prints such a spec. That everything is kept is false: a container that was allowed to fail is not any more, and devices are dropped.",
  "every 0.8 configuration without null entries; for the variables, without two settings that differ only in case; for files, those without a matrix whose conversion can be formatted (C82); every environment, all flags of the command",
  "all configurations; nothing in the repository compiles a converted file",
  "yaml/converter/legacy/internal/config.go:Convert", "yaml/converter/legacy/internal/config.go:toContainer", "yaml/compiler/compiler.go:Compile", "main.go:runConvert", "main.go:runCompile")
p("What a converted GitLab or Bitbucket file is worth",
  "A .gitlab-ci.yml file becomes a pipeline for each stage with the jobs of that stage, or, without stages, a pipeline for each job; a bitbucket-pipelines.yml file becomes one pipeline. Lint accepts such a pipeline exactly if every job and every service has a name and an image and no two of them share a name, none being called clone; trust makes no difference. The linter for whole files accepts a GitLab file exactly if no stage is listed twice. Compiled, a pipeline runs the clone step with the depth of the file, then the services, detached, then the jobs one after another. A job runs in its own image or else that of the file, as a script of the commands before all jobs, before the job, of the job, after the job and after all jobs; it sees the variables of the workspace and no others, and no secrets; it mounts the workspace and nothing else; it runs on success only. So the convert command succeeds on these files, and on what it printed the lint command succeeds exactly as said and the compile command prints such a spec. That everything is kept is false: variables, branches and services of a job, and its allow_failure, are lost.",
  "every GitLab and Bitbucket configuration without null entries, every order of maps, trusted or not; for files, those whose conversion can be formatted (C82); all flags of the commands",
  "all configurations and all orders of maps; nothing in the repository lints or compiles a converted file",
  "yaml/converter/gitlab/convert.go:Convert", "yaml/converter/bitbucket/convert.go:Convert", "yaml/linter/linter.go:Lint", "yaml/linter/config.go:Manifest", "yaml/compiler/compiler.go:Compile", "main.go:runConvert", "main.go:runLint", "main.go:runCompile")
p("Converting once is enough",
  "A line of a formatted file is empty, one of the marks --- and ..., indented, an item of a list, or begins with one of nineteen keys, none of them 'pipeline', whatever the strings of the resources contain. So a formatted file is never taken for a 0.8 file, and what a conversion gives is left alone by every later conversion, if it is not kept under the file name of GitLab or Bitbucket: the convert command prints what it is given when it is given what it printed, or what the fmt command printed or saved. Under the name bitbucket-pipelines.yml this is false: the converted file is converted again, to a pipeline without steps.",
  "every resource and every text of any system, every yaml reader, every order of maps, every address; numbers are written on one line",
  "all texts; strings with newlines that look like the start of a 0.8 file must be considered at every place of a resource where a string can be",
  "yaml/converter/convert.go:Convert", "yaml/converter/legacy/match.go:Match", "yaml/pretty/pretty.go:Print", "main.go:runConvert", "main.go:runFormat")
p("Signing changes nothing but the signature",
  "A signed file is read as the resources of the file that was signed, in their order and without its signatures, followed by one signature with the HMAC that the sign command prints. It can be read exactly if every document that is no signature can be read. So after sign --save the compile command prints the same spec, or the same message, with the same status, for every pipeline; the lint command says the same as before if the old signatures, if any, pass lint, and succeeds exactly if everything else passes. That signing keeps the whole text is false: what follows a line of 64 KiB is erased from the file, by sign --save and by fmt --save alike, and the verify command accepts what is left.",
  "every file, every key of at least 32 bytes, every MAC of 32 bytes, every yaml decoder that reads the signature document as what is written there, all flags of the commands",
  "all files; nothing in the repository reads a signed file other than to verify it",
  "yaml/signer/signer.go:SignUpdate", "yaml/signer/signer.go:Sign", "yaml/parse.go:Parse", "main.go:runSign", "main.go:runLint", "main.go:runCompile", "main.go:runVerify")
p("Joined files and appended text",
  "If a text of whole lines without an end mark (a line beginning with three dots) is followed by a text that begins with three dashes, the documents of the whole are those of the two in this order, and the whole can be read exactly if both can. Lint accepts the whole exactly if it accepts both; compile takes the pipeline from the first text if it is there, else from the second. A separator before the first document makes no difference. Whatever follows an end mark is not seen by any command but convert: all other commands end, print and write the same with and without it. Everything the formatter prints and the signer writes has an end mark. So text appended to a signed file is neither compiled nor linted, and the file still verifies; and two formatted files cannot be joined: the second is lost. The convert command does see text after the end mark.",
  "every two texts of these forms, of any length, every yaml decoder, all commands with all flags",
  "all texts; the tests have no file with text after an end mark and do not join files",
  "yaml/parse.go:ParseRaw", "yaml/parse.go:Parse", "yaml/pretty/pretty.go:Print", "yaml/signer/signer.go:SignUpdate", "main.go:main")
p("What the compiler does not look at",
  "The compiled spec does not depend on the version, concurrency, dependencies, node, pull secrets and trigger of the pipeline; on the devices, push section and shell of containers; on the build section of services; on the arguments and labels of build sections; nor, for a step with a build section, on anything but its name, image, conditions, dependencies, commands, entrypoint and command, detach, dns, resources and failure policy. Two pipelines that differ in these only compile to the same spec, with the same identifiers. So for two files whose chosen pipelines differ in these only, whatever else the files contain, the compile command ends with the same status and prints the same. In particular a pipeline whose trigger excludes the branch given on the command line is compiled all the same.",
  "every two pipelines that agree in all other fields, every compiler whose skip and privilege functions look at the image, the conditions and what a container runs; every two files with such pipelines, all flags of the command",
  "all pairs of pipelines; that a field has no effect anywhere cannot be seen from examples",
  "yaml/compiler/compiler.go:Compile", "yaml/compiler/step.go:createStep", "yaml/compiler/step.go:createBuildStep", "main.go:runCompile")
p("The order of steps, services, volumes and documents",
  "Lint accepts some order of the steps, services and volumes of a pipeline exactly if nothing else is wrong with it: every container and volume is good, names are distinct, every dependency names a step or the clone step, and no dependency leads back to where it began. Of an accepted pipeline exactly those orders are accepted in which each step comes after the steps it needs; the order of services and volumes makes no difference. The same holds for the pipelines of a manifest and the linter for manifests. For the lint command the order of the documents makes no difference, and for the compile command with the name of a pipeline neither, if the names are distinct. That every graph without cycles is accepted is false.",
  "every pipeline without null entries and all its permutations; every list of resources and all its permutations; every two files with the same resources in different order",
  "all graphs and all permutations; that an order exists for every acyclic graph is an existence statement no test can make",
  "yaml/linter/linter.go:checkPipeline", "yaml/linter/linter.go:checkDeps", "yaml/linter/config.go:checkPipelines", "yaml/linter/config.go:checkPipelineDeps", "main.go:runLint", "main.go:runCompile")
p("Filters can be applied anywhere, in any order",
  "In a sequence of transforms the filters Include, Exclude and ResumeAt can stand anywhere, in any order and any number of times: two sequences with the same other transforms in the same order and the same set of filters give the same result, error or crash included. In the end a step is off exactly if it was off before or is not the clone step and some filter stops it: an Include list, not empty, without its name; an Exclude list with its name; a ResumeAt name of a step that comes later or is not there. Nothing else is changed. Filters never cause more secrets to be asked for. Of several limits the last one counts. A callback for secrets is an exception: it is asked for fewer secrets after a filter than before.",
  "every spec, all lists of transforms, every order of maps, every supply of random names",
  "all sequences of transforms in all orders; the tests apply one transform to one spec",
  "yaml/compiler/transform/filter.go:Include", "yaml/compiler/transform/filter.go:Exclude", "yaml/compiler/transform/filter.go:ResumeAt", "yaml/compiler/transform/combine.go:Combine", "yaml/compiler/transform/limits.go:WithLimits", "yaml/compiler/transform/secret.go:WithSecretFunc")
p("Exactly when the commands crash",
  "Whether or not a pipeline has null entries, Lint accepts it exactly if it has no null volume, step, service or mount, no null port unless the repository is trusted, and is well formed. It crashes exactly if a null entry is met, in the order volumes, platform, steps, services, before anything to complain about; the lint command then exits with status 2. The format command crashes exactly if a step has a null device, variable, port, setting or mount or the pipeline a null volume. Sign and verify never crash. A file without null entries crashes neither lint, format, sign, verify nor compile. That the commands crash on the same files is false.",
  "every pipeline, every file, all flags, every machine",
  "quantifies over all pipelines with null entries anywhere in their lists, mixed with every other defect",
  "yaml/linter/linter.go:checkPipeline", "yaml/linter/linter.go:checkContainer", "yaml/linter/linter.go:checkVolumes", "main.go:runLint", "main.go:runFormat", "main.go:runSign", "main.go:runVerify")
p("Which defect is reported",
  "The checks form a fixed list, in the order volumes, operating system, architecture, then for each step its name, its ports, image, build image, empty name, privileged mode, devices, dns, dns_search, extra_hosts, network_mode, mounts and dependencies, then the services in the same way. Lint accepts a resource exactly if no check of the list applies and otherwise reports the first that does, or crashes if that one meets a null entry. The same holds for the checks over the pipelines of a manifest, which never crash, and for the lint command over all resources of a file in order, whose exit status and message are those of the first check that applies. That every defect is reported is false.",
  "every resource, every manifest, every file, trusted or not, null entries included",
  "quantifies over all combinations of defects, and tests usually have one defect at a time",
  "yaml/linter/linter.go:Lint", "yaml/linter/linter.go:checkPipeline", "yaml/linter/linter.go:checkContainer", "yaml/linter/linter.go:checkVolumes", "yaml/linter/linter.go:checkDeps", "yaml/linter/config.go:Manifest", "yaml/linter/config.go:checkPipelines", "main.go:runLint")
p("Appending steps leaves the rest of the compiled pipeline as it was",
  "Compile does not read the version, concurrency limit, node selector, trigger, pull secrets and dependencies of a pipeline. If steps are appended to a pipeline, it still compiles exactly when none of the appended steps is null or, unless it builds an image, has a null port or volume; and if none of them builds an image and they do not turn a serial pipeline into a parallel one, then the spec keeps its metadata, platform, secrets, steps and files, gets as many further steps as were appended and at most as many further files, and keeps its volumes but for the random name of the docker socket; without build steps the volumes are entirely the same. Refuted without the two conditions: a first depends_on in a later step makes services and earlier steps wait for clone; a later build step replaces the image of an earlier step.",
  "all surroundings (random names, globs, map orders), compilers as the package configures them (all compilers for what is not read), pipelines and lists of appended steps, any number of names drawn before",
  "Relates two compilations of arbitrary pipelines; a test compares one golden spec.",
  "yaml/compiler/compiler.go:71-262")
p("A container is compiled alike wherever it stands",
  "If two pipelines have the same platform, workspace and clone section and are both serial or both parallel, then a container that occurs in both, at any position among whatever other steps, services and volumes, is compiled to the same step but for the random names and the image; the image is the same too if neither pipeline builds images. A build step is the same but for the random names and the value of DOCKER_BUILD_IMAGE_ALIAS. Refuted for the image: it depends on whether another step builds it.",
  "all surroundings (random names, globs, map orders), compilers as the package configures them, pairs of pipelines, positions, numbers of names drawn before",
  "Relates two compilations of arbitrary pipelines; tests compile one pipeline at a time.",
  "yaml/compiler/compiler.go:71-262", "yaml/compiler/step.go:26-204")
p("What is left of an accepted pipeline is accepted if no dependency is missing",
  "If Lint accepts a pipeline and some steps, services and volumes are left out, it accepts the rest exactly when each step that is left depends only on steps that are left, or on the clone step; otherwise it reports an unknown step dependency and nothing else. The same holds for the linter of manifests and the pipelines of a manifest. Mounts are not dependencies: a volume that is still mounted may be left out.",
  "all pipelines without null entries, all selections of steps, services and volumes, both trust settings; all manifests and selections of resources",
  "Ranges over all parts of all accepted pipelines.",
  "yaml/linter/linter.go:68-111", "yaml/linter/linter.go:223-234", "yaml/linter/config.go:45-81")
p("Credentials given to the compile command reach only their own place",
  "Run the compile command twice with flags that differ only in registry passwords, in the values of secrets, in the text of the git credentials (given both times or neither) and in the netrc password (empty both times or neither). Exit status, error output and files are the same, and a failed run prints the same. The printed specs agree once the registry passwords, the data of secrets, the data of .git-credentials files and the values of CI_NETRC_PASSWORD and DRONE_NETRC_PASSWORD in the steps are blanked: no credential reaches a command, image, label, volume, name, file or other variable, or influences which steps run. For the compiler itself, two texts of git credentials change nothing but the data of the file.",
  "all pairs of flags that differ in credentials only, all files, decoders, random names, environments, map orders and printers of specs; for the compiler, all pipelines and compilers as the package configures them",
  "Relates two runs on arbitrary inputs (non-interference); a test sees one run and looks at the places it knows of.",
  "main.go:209-308", "yaml/compiler/transform/auths.go:21-25", "yaml/compiler/transform/netrc.go:34-82", "yaml/compiler/transform/secret.go:24-39", "yaml/compiler/clone.go:65-87")
p("The build decides which steps run and the commit variables, and nothing else",
  "Run the compile command twice on the same file with flags that differ only in event, repository, remote, branch, ref, commit, cron job, instance and deployment target. Exit status, error output and files are the same, and a failed run prints the same. The printed specs agree apart from the run policies of steps and the variables DRONE_COMMIT_BRANCH, DRONE_COMMIT_SHA, DRONE_COMMIT_REF, DRONE_REMOTE_URL, DRONE_BUILD_EVENT and DRONE_TAG: the same steps in the same order, with the same images, commands, mounts, volumes, secrets, identifiers and dependencies, whether or not they are skipped. For the compiler itself, two skip functions change nothing but policies, and a policy that differs is 'never' in one of the two.",
  "all pairs of flags that differ in the build only, all files, decoders, random names, environments, map orders and printers of specs; for the compiler, all pipelines, all pairs of skip functions",
  "Relates two runs on arbitrary inputs; tests of skipping look at the policy only.",
  "main.go:209-308", "main.go:328-339", "yaml/compiler/compiler.go:71-262", "yaml/compiler/skip.go:21-57")
p("Names of steps are only labels",
  "Give the steps and services of a pipeline other names, in depends_on as well, keeping different names different, the empty name empty and the name clone as it is. Then Lint says exactly the same, including which complaint it makes. Compile gives the same result with the new names in the names, labels and dependencies of steps and in the names of script files and their mounts, and everywhere else the same: identifiers, images, commands, scripts, variables, volumes, policies. It crashes on the one pipeline if it crashes on the other. The image and skip functions the package offers do not look at names.",
  "all pipelines (also with null entries), both trust settings, all injective renamings that keep the names the tools know; for Compile all renamings that keep clone and .git-credentials, all compilers as the package configures them whose callbacks ignore names",
  "Relates all pipelines with all their renamings.",
  "yaml/linter/linter.go:68-111", "yaml/linter/linter.go:223-234", "yaml/compiler/compiler.go:71-262", "yaml/compiler/step.go:26-204")
p("Names of pipelines are only labels",
  "Give the pipelines of a manifest other names, in depends_on as well, keeping different names different. Then manifest lint says exactly the same, including which complaint it makes, and so does Lint for each resource. Compile gives the same result but for the label io.drone.pipeline.name, which has the new name, and crashes on the one if it crashes on the other. If the empty name stays empty, the pipeline the compile command selects by a name is the one it selects by the new name after renaming. Giving two pipelines the same name is noticed.",
  "all manifests and pipelines (also with null entries), both trust settings, all injective renamings of pipelines (for Compile and Lint any function), all compilers as the package configures them, all names to select by",
  "Relates all manifests with all their renamings.",
  "yaml/linter/config.go:41-81", "yaml/linter/linter.go:51-66", "yaml/compiler/compiler.go:71-262", "main.go:215-226")
p("Names of volumes are only labels",
  "Give the volumes of a pipeline other names, in the mounts and devices of its steps and services as well, keeping different names different and the names workspace, _workspace, _docker_socket and host as they are. Then Lint says exactly the same, including which complaint it makes. Compile gives the same result with the new names in the volumes of the spec and the mounts of its steps, and everywhere else the same. It crashes on the one pipeline if it crashes on the other. The image and skip functions the package offers do not look at volumes. A volume cannot be given the name of the docker socket.",
  "all pipelines (also with null entries), both trust settings, all injective renamings that keep the four names, all compilers as the package configures them whose callbacks ignore volumes, with and without host workspace",
  "Relates all pipelines with all their renamings.",
  "yaml/linter/linter.go:129-221", "yaml/compiler/compiler.go:71-262", "yaml/compiler/step.go:26-204", "yaml/compiler/workspace.go:97-130")
p("Names of secrets are only labels",
  "Let the variables and settings of a pipeline's steps and services that refer to secrets refer to others, and let them have any literal beside the reference. Lint says exactly the same. If no name becomes empty, Compile gives the same result with the new names in the secrets its steps ask for, and everywhere else the same: a literal beside a reference is never used, and no name of a secret reaches the variables, commands or files. It crashes on the one pipeline if it crashes on the other. The image and skip functions the package offers do not look at secrets. An empty name is no reference: then the literal is used.",
  "all pipelines (also with null entries), both trust settings, all functions on names that keep non-empty names non-empty (for Lint all functions), all literals and settings put beside references, all compilers as the package configures them whose callbacks ignore secrets",
  "Relates all pipelines with all their renamings.",
  "yaml/compiler/step.go:26-147", "yaml/compiler/compiler.go:71-262", "yaml/linter/linter.go:68-185", "yaml/env.go:21-46")
open(os.path.join(os.path.dirname(__file__), "..", "properties.jsonl"), "w").write(
    "".join(json.dumps(x) + "\n" for x in P)) if __name__ == "__main__" else None
