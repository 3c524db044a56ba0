# Formal model of drone/drone-yaml

Everything is in `rocq/theories` (Coq 8.16.1, standard library only):

| directory  | contents |
|------------|----------|
| `Model/`   | the code, function by function, each definition citing file and lines in /repo; no proofs |
| `Spec/`    | small specifications, written without the helpers of the model |
| `Proofs/`  | lemmas |
| `Props/`   | the property theorems only, each closed by `exact`, with `Print Assumptions`, and an `Example` beside it showing that its hypotheses can be met |
| `Conform/` | the repository's own test tables run against the model (tests, not proofs) |

## How Go is modelled

* A Go `string` or `[]byte` is Coq's `string` (a list of bytes). `nil` and empty slices are identified unless code tells them apart.
* Slices share no memory. The code appends to slices it did not make in three places: dependencies of a container (compiler.go 181, 220; nothing reads past their end), the patterns of a condition (cond.go 96, read once) and the commands before a GitLab job (gitlab/convert.go 48-52). The last would mix up the commands of jobs if the slice had room to spare; the yaml decoder and `StringSlice` make slices of exactly the length needed, which is assumed.
* A function that can fail returns `outcome A := Ok a | Err e | Panic`. A nil dereference, a write to a nil map and an integer division by zero are `Panic`.
* A pointer that may be nil is an `option`. A pointer used to update a value in place becomes a function returning the new value.
* A map is an association list with distinct keys, in the order in which one execution iterates over it. A claim that must hold for every iteration order quantifies over all permutations. Maps that are only read or written by key are compared by lookup.
* `rand.String` inside the compiler is an arbitrary stream `nat -> string` read through a counter; its own algorithm is modelled separately on a byte stream.
* External functions are parameters: theorems quantify over every glob matcher, MAC, JSON encoder, float formatter and yaml decoder, with a hypothesis only where a property needs one, and an instance shows the hypothesis can be met.

## Trusted base

* Coq's kernel (and its virtual machine for `vm_compute`). `Print Assumptions` is printed below every property theorem; every one is closed under the global context unless said here.
* The reading of the Go code into `Model/`.
* What is said below about the libraries the code calls.

* The specifications in `Spec/`: in particular `YamlSpec.v`, a reader for the subset of yaml the formatter writes, stands for `buildkite/yaml` in C64. C82, C83, C84 and C105 to C110 hold for every reader that agrees with it on the documents it reads (`Reads`), whatever else it reads; that `buildkite/yaml` is one is assumed (documents of yaml characters without document marks and lines of blanks only).

## What is modelled

| code | model |
|------|-------|
| `yaml/parse.go`, `manifest.go` | `RawParse.v`: scanner, `ParseRaw`, the kind dispatch; the yaml decoder is a parameter |
| `yaml/*.go` (types, `UnmarshalYAML`, `Validate`) | `Types.v`, `Decode.v` (yaml trees to values), `Lint.v` (Validate) |
| `yaml/signer` | `Signer.v`, for every MAC; `Sha256.v` is HMAC-SHA256 |
| `yaml/cond.go`, `compiler/skip.go` | `Cond.v`, for every glob function; doublestar's in `DoubleStar.v` |
| `yaml/linter` | `Lint.v` |
| `yaml/compiler` | `Compiler.v`, `Script.v`, `Quote.v`, `Encode.v`, `Path.v`, `Dind.v`, `Engine.v` |
| `yaml/compiler/image` and docker/distribution/reference | `Image.v` |
| `yaml/compiler/internal/rand` | `Rand.v` |
| `yaml/compiler/transform` | `Transform.v` |
| `yaml/converter`, `legacy`, `gitlab`, `bitbucket` | `Convert.v`, `Legacy.v`, `Matrix.v`, `Gitlab.v`, `Bitbucket.v` |
| `path.Match`, called by `bitbucket/config.go` | `Glob.v`; in `Bitbucket.v` it is a parameter and the theorems C62, C90 hold for all matchers |
| `url.Parse` and `URL.Hostname`, called by `legacy/internal/config.go` | `Url.v`; in `Legacy.v` it is a parameter and the theorems C56-C60, C74, C88 hold for all of them |
| `yaml/pretty` | `Pretty.v` |
| `yaml/manifest.go` (JSON) | `Json.v`: trees of JSON texts; `encoding/json` is reduced to the rules for structs, maps, pointers and `omitempty`; float literals are parameters |
| `yaml/manifest.go` (Encode), `env.go`, `param.go` (MarshalYAML) | `Emit.v`: the tree the yaml library writes; the text of a tree is a parameter |
| `yaml/unit.go` with docker/go-units 0.3.3 | `Units.v`: `RAMInBytes`, `BytesSize`, the float64 arithmetic and `%.4g` exactly; everywhere else they are parameters `ramInBytes`, `bytesSize` and the theorems hold for all of them |
| `main.go` | `Main.v`; kingpin is reduced to: the variables of the chosen command are set, the others keep their zero values, the source is opened first |

Not modelled: `yaml/converter/circleci` (types and decoders only, nothing calls them), the yaml parser and emitter themselves,
yaml anchors, aliases and merge keys, `fmt` verbs other than the ones named, concurrency (there is none).

## Libraries

* `bufio.Scanner` with `ScanLines`: lines end at `\n`; one trailing `\r` is dropped; a line whose raw length without `\n` is 65536 or more stops the scan; an empty rest yields no line.
* `docker/distribution/reference` 2.7.1: modelled as an executable parser.
* `buildkite/yaml` (go-yaml v2.1): the parser itself is a parameter; the decoding of a parsed node into the Go types that have their own `UnmarshalYAML` is modelled on an abstract node type.
* `docker/go-units` 0.3.3 is not in /repo; `Units.v` follows its published source. The conversion of a float64 of 2^63 or more to int64 gives -2^63, as on amd64.
* `path.Match` is not in /repo; `Glob.v` follows its published source (Go 1.12) and is run on the cases of its test (`Conform/GlobCases.v`). Later versions report more malformed patterns but match the same names.
* `bmatcuk/doublestar` 1.1.1 is not in /repo; `DoubleStar.v` follows its published source as far as it could be reproduced without network, and is run on cases of its test (`Conform/DoubleStarCases.v`).
  C102 leaves out what is least certain: two stars in a row within a component, braces with an empty option, options with escapes or classes, and backslashes before a slash.
* `net/url` is not in /repo; `Url.v` follows its published source (Go 1.12.8), keeps the host name and the path only, and is run on cases of its tests (`Conform/UrlCases.v`).
* `path.Join`/`path.Clean`, `base64`, `hex`, `strconv.Itoa`, `strings.*` are modelled by executable functions.

## Plan per property

See `properties.jsonl` for the statements.

* C01-C04 (parse): byte-level model of the scanner and of the loop in `ParseRaw`; proofs by induction over lines.
* C05-C11 (signer): on top of the parse model, for every MAC function and every yaml decoder that reads the signature document the signer writes; SHA-256/HMAC are implemented in `Model/Sha256.v` to reproduce the test vector.
* C12-C15 (conditions): direct model, for every glob function.
* C16-C21 (linter): direct model with explicit panics; accepted pipelines are characterised by a declarative predicate; graph claims by induction on paths.
* C22-C26 (images): executable model of the reference grammar; Expand/Trim by round-trip lemmas between printing and parsing.
* C27-C42 (compiler): the whole of `Compile` as a function of the pipeline, the configuration, the random stream and the map orders.
* C43-C49 (transforms): functions on the compiled spec.
* C50-C53 (decoding, validation): functions on yaml nodes.
* C54-C63, C74 (converters): functions on decoded configurations; the cartesian product by the mixed-radix argument; map orders by quantifying over permutations.
* C64-C68 (formatter): the writer is a state (text, depth, zero flag, index stack); every printer is an action on it.
  C64 against the scalar part of `YamlSpec.v`; C66 by one lemma per printer; C67 by characterising the panics of each printer; C68 by induction over the chunks.
* C69, C84-C87 (command line): the variables that kingpin sets for the chosen command, files as a function from names, exit status; the ten transforms of `compile` composed in order.
* C70 (hostnames): on the parsed reference.
* C71-C73 (decoding): `Exact` predicates in `DecodeSpec.v` say what each key of a document means; order independence by uniqueness of the meaning.
* C75-C81 (compiler, field by field): success iff no null entries; files, header, clone step, trace lines, settings text, CPU limits (IEEE doubles as `SpecFloat`), volumes.
* C88-C90 (reading 0.8, GitLab and Bitbucket files): same method as C71 with the predicates of `ForeignSpec.v`.
* C91-C93 (JSON): C91 as C71; C92 against `Object` in `JsonSpec.v`, a list of keys with what may stand there; C93 from C92, reading each entry of such an object.
  `Spelling` (floats and integers are read back) is a hypothesis of C93, met by `sampleFormat` and `sampleParse`.
* C94-C95 (Encode): the documents by C01; the round trip by one lemma per type, each computing the decoder of `Decode.v` on the written tree, and a permutation for the order of keys.
  That the library reads back what it writes (`Legible`, `FloatTree`) is a hypothesis, met by the file in `Conform/EmitCases.v`.
* C96-C97 (sizes): the reader and the writer of sizes against a relational spec of the number syntax, rounding to 53 bits and to four digits; the round trip error from the two rounding bounds. The refutations are computed on a whole file.
* C98-C99 (formatted text): `FormatSpec.v` says for each resource which entries its document has, as a tree, and `TreeSpec.v` how a tree is laid out; the printers are shown to write exactly that. The quoting rule is an inductive predicate on strings.
  Needs that integer fields are 64-bit and map keys distinct, which Go guarantees, and that no null entries make the formatter panic (C67).
* C100 (Bitbucket patterns): `GlobSpec.v` gives the syntax of patterns and their meaning on code points. The greedy search finds a match if there is one because a chunk that matches earlier leaves a longer rest with as many slashes.
  Refuted without the side conditions: a class with a slash between two stars, and characters beyond ASCII after a star.
* C101 (clone URLs): `UrlSpec.v` gives the syntax of URLs with a host (RFC 3986). Such a URL is split by the parser as the syntax says; conversely a text in which the parser finds a host has these parts. The workspace by C56, and by C42 where kubernetes joins the paths.
* C102 (patterns of conditions): `DoubleStarSpec.v` gives the syntax and the meaning of patterns with `**`, braces and classes, on code points. The matcher decides the meaning by induction on the pattern; conditions by C12.
* C103 (triggers of converted pipelines): C59 with the patterns of C102. A level in front of a pattern is in front of every value it matches, for all byte strings.
* C104 (lint, then compile): an accepted pipeline has no null entries, so that C75 applies; the claims C29 to C32 about the pipeline with or without its clone step, carried through the transforms by C87.
* C105 (format, then lint): the linter looks at nothing the formatter reorders, and accepts both the empty and the default platform; with C82.
* C106 (convert, then lint): the specification of converted pipelines (C56, C58) against that of well-formed ones (C16); the names made distinct are unique, so the condition can be read off the old file; with C82 for the printed text.
* C107 (order of maps, format, then compile): a relation between pipelines that differ only in the order of their maps (and an empty platform spelled out), and one between specs that agree except for the order of the secrets of a step; every step of the compiler and every transform without outside requests takes related to related; the pipeline read back by C82 is related to the original.
* C108 (format, then sign, then format): the documents of a formatted file are read back one by one as they were written, so what the signer keeps is what the formatter writes for the same resources; a hexadecimal digest needs no quotes, so the signature document of the signer is that of the formatter; C82 and C05 give the rest.
* C109 (convert, then compile): the specification of converted containers (C56, C58) against those of compiled steps (C27 to C40, C75, C76), container by container; volumes are found by name because hexadecimal names are distinct from each other and from those of the workspace; through the printed text with C82 and C107.
* C110 (GitLab and Bitbucket, then lint and compile): a job is a record of what the file asks for; the specification of the converters (C61, C62) makes each container one of a job, which lint (C16, C20) and the specification of compiled steps (C27 to C40) decide; sorted and printed pipelines are still pipelines of the same jobs (C82).
* C111 (converting once): the layout of a tree (C82) is cut into lines; no scalar, key or piece of folded text has a newline, by induction over values and item by item over the printers; at the margin there are only items and the keys of the four kinds of documents, so the pattern of the legacy matcher (C63) finds nothing. All three converters end in the printer.
* C112 (signing changes only the signature): the documents of a signed file (C06) are typed one by one; a document is a signature exactly if its kind says so, so filtering documents and filtering resources agree; lint and compile run over the filtered list. For lines that are too long the scanner stops (C03), so the signer only sees what comes before.
* C113 (one text after another): induction over the lines for the loop of the parser, whose state is the list of documents so far; a text without end mark leaves it in a state from which the documents of the next text are appended. The formatter and the signer end with a line of three dots (C65, C06). Each command but convert is a function of the documents.
* C114 (what the compiler does not look at): a relation between pipelines that leaves out the fields nobody reads, and a walk through the compiler showing that related pipelines give the same spec with the same draws of identifiers. The skip and privilege functions are parameters; they may look at the image, the conditions and what a container runs, as those of the command do.
* C115 (order in files): a graph without cycles can be sorted: as long as nothing is ready, a walk along the dependencies visits ever new names, by acyclicity, which a finite list does not allow. The rest is C16 and C20 under permutations.
* C116 (filters among transforms): a filter switches steps off by a mask that depends on the names only; masks commute and are idempotent; no transform that adds something looks at policies or changes names. A sequence is then brought into the form additions, filters by induction.
* C117 (when the commands crash): `Spec/CrashSpec.v` says what the linter accepts without assuming that there are no null entries (`Passes`) and which pipelines crash it (`Crashes`: the first null in the order volumes, steps, services that is met before a complaint). Proved from the model of linter.go as two equivalences over all pipelines; the commands lint and format are characterised exactly, sign and verify never crash, and a file without null entries crashes no command but possibly convert. The exact condition for compile is C87, that for convert C69.
* C118 (which complaint is reported): `Spec/RuleSpec.v` writes the linter as an ordered list of rules (a condition and a verdict: a message, or a crash); the first rule that applies decides. Proved by induction over the lists of a pipeline for Lint, for the manifest linter and for the lint command (whose message is that of the first rule over all resources in order). C16 says that a message names a defect; this says which one.
* C119 (steps at the end): two pipelines that agree on the parts listed in `Spec/GrowSpec.v`, one with more steps at the end, are compiled from the same number of random names. Proved from the explicit description of the compiler's output (Proofs/CompilePure.v) by splitting positions, files, renamed images and renamed steps over the concatenation. That parts not listed are never read holds for every compiler, also with callbacks. Two refutations say why the hypotheses are needed.
* C120 (a container on its own): `Spec/AlikeSpec.v` compares the steps made of one container in two compilations field by field. Proved from the explicit description of the compiler's output: each step is a function of its container, the platform, workspace and clone section, whether the pipeline is serial, and a random name.
* C121 (leaving things out): `Spec/SubSpec.v` says that one list is another with elements left out, and that a selection of steps is closed under dependencies. Proved by induction over that relation from the characterisations of C16 and C20: names stay distinct, and a dependency that is kept must be the earlier step, for otherwise its name would occur twice in the whole.
* C122 (where credentials go): `Spec/CredentialSpec.v` blanks the places meant for credentials in a spec and says when two sets of flags differ in credentials only. Each transform of the command is shown to act on blanked specs (blanking after it equals a transform of the blanked spec that does not read the credentials), so their combination does; the compiler itself is covered by the explicit description of its output.
* C123 (one pipeline, many builds): `Spec/BuildSpec.v` drops the policies of steps and the six variables about the commit from a spec and says when two sets of flags differ in the build only. As for C122, each transform of the command acts on what is left; the compiler without a transform is compared from the explicit description of its output, where steps differ only in whether they are skipped.
* C124 (names are labels): `Spec/NamesSpec.v` applies a function to the names and dependencies of a pipeline's steps and services, and to the places of a compiled spec where they occur. Lint is shown invariant by induction over the lists with the set of names seen so far mapped too; for Compile the explicit description of the output commutes with the function part by part, and pipelines with null entries stay such.
* C125 (names of pipelines): `Spec/TitleSpec.v` applies a function to the names and dependencies of the pipelines of a manifest, and to the one label of a compiled spec that has the name. Manifest lint is shown invariant by induction over the resources with the set of names mapped too; for Compile the explicit description of the output has the name in that label only.
* C126 (names of volumes): `Spec/VolumeNameSpec.v` applies a function to the names of a pipeline's volumes, mounts and devices, and to the names of volumes and mounts in a compiled spec. The proofs go as for C124; the function keeps the names the compiler uses itself, so those are told apart from the others as before.
* C127 (names of secrets): `Spec/SecretNameSpec.v` applies a function to the names of secrets in the variables and settings of a pipeline, puts any literal beside them, and applies the function to the secrets the compiled steps ask for. The proofs go as for C124.
* C82-C83 (round trip): each printer's text is the layout of a yaml tree (`PrettyTree.v`, `PrettyLayout.v`), the reader inverts layouts (`YamlFacts.v`, `YamlStrings.v`, `YamlDocs.v`),
  and decoding that tree gives the resource back (`PrettyRound.v`, `PrettyTrip.v`). The resolution of plain scalars (`resolve`) is a parameter constrained by `Resolver`:
  it keeps the text of a scalar, resolves the null words to null, and decimal integers and booleans to themselves. `plainResolve` is an instance.

## Where the code does not do what one would expect

Proved as `_refuted` theorems where they concern a property; the rest are observations made while modelling.

* Parse: a line of 64 KiB or more silently ends the input (C03); `sign --save` and `fmt --save` then erase the rest of the file, and `verify` accepts what is left (C112); lines ending in CR CR lose the check of their signature (C05); document boundaries are not signed (C10);
  a comment or an empty document before the first `---` makes `Parse` fail.
* Conditions: `a/**` does not match `a`, and `*` does not match names with a slash (C102).
* Linter: null steps crash it (C21, C73).
* Images: registries can be confused (C25); Trim and Expand corner cases (C22, C23).
* Compiler: services with `depends_on` break the graph (C29); build steps ignore privileged, environment, commands (C76); `working_dir` (C36); volumes (C81); settings lists (C79); CPU limits (C80); trace lines (C78).
* Transforms: labels with a host workspace panic (C48); a memory limit resets the CPU limit (C46); `WithVolumeSlice` drops paths with a colon; `NetrcFunc` is never called by the compiler.
* Legacy: de-duplicated names collide (C57); a step called `clone` converts to a file that lint refuses (C106); repositories with scp-like addresses (`git@host:path`) all get the workspace `src`, and for kubernetes the path of a URL may lead out of `/drone` (C101); builds of proposed changes (`refs/pull/` and the like) run whatever branches are listed (C103); a list of branches with a nested list is no constraint at all (C88); devices, tmpfs and shell are dropped, and a step with `allow_failure` fails the build after conversion (C109); an empty matrix axis crashes or not depending on map order (C55).
* What is appended to a formatted or signed file is ignored by every command but `convert`, which may take it for a 0.8 file; `cat` of two formatted files is the first one (C113).
* The compile command ignores the trigger of the pipeline it compiles, though it is given branch and event, and compiles a pipeline excluded for them; it also ignores `depends_on` of the pipeline, `node`, `concurrency`, pull secrets, secret documents, `push`, `devices` and `shell` of containers, and the arguments and labels of a build (C114).
* A step cannot be given the name `clone` while the clone step is on, though the name is nowhere reserved in the file format (C124).
* Whether the compile command has a netrc password decides whether steps are told the machine and the user at all (C122).
* A volume can be left out while a step still mounts it; the linter does not notice (C121).
* Appending a step with depends_on, or one that builds an image, changes the steps before it: the former what they wait for, the latter the image they run (C119).
* Whether a null entry in a list crashes the linter depends on what comes before it: a null port crashes it for untrusted repositories only, a null mount only if the step has a name and an image (C117).
* Lint wants dependencies before the steps and pipelines that need them: a graph without cycles written in another order is refused as having an unknown dependency (C115).
* A converted file kept under the name `bitbucket-pipelines.yml` is converted again, to a pipeline without steps (C111).
* GitLab: variables, only, services of a job and `allow_failure` are lost (the key that is read is `allowfailure`), and so are the entrypoint and command of the image of the file (C110).
* Command line: `convert --save` never saves (C69); `lint` does not check the manifest (C86); `compile` does not lint, ignores `--trusted`, and overwrites five `--env` variables (C87); a null port is accepted for trusted repositories and makes `compile` panic; without `--clone` steps may wait for a clone step that is not there (C104); `fmt` drops an empty build section that `lint` refuses (C105); `fmt` spells out the default platform, which then shows in the compiled spec, and the order of the secrets of a step is that of the maps (C107); `fmt --save` after `sign --save` invalidates the signature unless the file was formatted before (C108).
* JSON: settings that are mappings cannot be written (C92); integers in settings become floats, and a resource without a kind becomes a pipeline (C93); sizes with a unit and plain variables, fine in yaml, are errors in JSON (C91); the tag of the registry version is misspelled, so it is always written.
* `Encode`: an empty variable becomes null, on which `Print` panics, and whole floats become integers (C95).
* Sizes are written with four digits, so formatting a file changes a memory limit that is no multiple of a unit; limits of a few kilobytes lose a byte each time the file is formatted. Limits of 2^60 - 64 bytes or more, and negative ones, are written in a form that cannot be read (C97). A limit of 2^63 bytes or more is read as -2^63 (C96).
* GitLab and Bitbucket: top-level keys such as `cache` become jobs; `parallel` steps panic. A branch is first matched, with its `refs/heads/`, against the tag patterns (C100); `**` is no more than `*`, so that `feature/**` does not match `feature/a/b`.
* Formatter: drops registries (C65), matrix conditions, variables with an empty value (C82), the value of a variable that also has a secret; prints strings that look like numbers plainly (C82);
  panics on null entries (C67); prints nothing for settings of 2^63 or more, so that formatting the result panics, and null for the values of mappings in settings whose keys are no strings (C98); prints `key:` and `[]` on two lines for an empty list at the top of settings, which is not yaml;
  null words, a lone `-` or `?`, and strings starting with `&` or `!` are not quoted (C64); an empty manifest prints `...`, which does not parse (C65).
