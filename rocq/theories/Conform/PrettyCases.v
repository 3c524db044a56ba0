(** * PrettyCases.v: the formatter against the files of yaml/pretty/testdata.

    Each input and its golden file are formatted to the golden file. Left out: pipeline_resources
    (sizes need go-units), pipeline.yml.golden (empty), and registry.yml.golden, which shows a
    document the formatter no longer writes (C65). *)
From Verif Require Import Model.Go Model.Types Model.Decode Model.RawParse Model.Pretty Spec.YamlSpec.
From Verif Require Import Proofs.PrettyMore Proofs.PrettyClaims.
Definition fmt (s : string) : outcome string := m <- parse sampleDecoder s ;; sample print m.

Definition in_cron : string := "version: 1
name: nightly
kind: cron

spec:
  branch: master

  schedule: 1 * * * *

  deployment:

    target: production
".
Definition golden_cron : string := "---
version: 1
kind: cron
name: nightly
spec:
  schedule: 1 * * * *
  branch: master
  deployment:
    target: production

...
".
Example case_cron : fmt in_cron = Ok golden_cron /\ fmt golden_cron = Ok golden_cron.
Proof. split; vm_compute; reflexivity. Qed.

Definition in_manifest : string := "---
kind: pipeline
name: default

clone:
  disable: true
  depth: 50

platform:
  os: linux
  arch: arm64
  variant: 7
  version: 1803

steps:
- name: build
  image: golang
  commands:
  - go get
  - go build

- name: test
  image: golang
  commands:
  - go test -v

trigger:
  status:
  - success
  branch:
  - master
  - develop

depends_on:
- foo
- bar

---
kind: secret
name: username
data: N2NmYjA3ODQwNTY1ODFlY2E5MGJmOWI1NDk0NDFhMTEK

---
kind: cron
name: nightly

spec:
  schedule: ""1 * * * *""
  branch: master
  deployment:
    target: production

---
kind: signature
hmac: N2NmYjA3ODQwNTY1ODFlY2E5MGJmOWI1NDk0NDFhMTEK
".
Definition golden_manifest : string := "---
kind: pipeline
name: default

platform:
  os: linux
  arch: arm64
  variant: 7
  version: 1803

clone:
  depth: 50
  disable: true

steps:
- name: build
  image: golang
  commands:
  - go get
  - go build

- name: test
  image: golang
  commands:
  - go test -v

trigger:
  branch:
  - master
  - develop
  status:
  - success

depends_on:
- foo
- bar

---
kind: secret
name: username
data: >
  N2NmYjA3ODQwNTY1ODFlY2E5MGJmOWI1NDk0NDFhMTEK

---
kind: cron
name: nightly
spec:
  schedule: 1 * * * *
  branch: master
  deployment:
    target: production

---
kind: signature
hmac: N2NmYjA3ODQwNTY1ODFlY2E5MGJmOWI1NDk0NDFhMTEK

...
".
Example case_manifest : fmt in_manifest = Ok golden_manifest /\ fmt golden_manifest = Ok golden_manifest.
Proof. split; vm_compute; reflexivity. Qed.

Definition in_pipeline_build_long : string := "---
kind: pipeline
name: default

platform:
  os: linux
  arch: amd64

steps:
- name: test_build
  build:
    image: octocat/hello-world
    context: .
    args:
      foo: bar
      baz: boo
    labels:
      qux: qoo
    cache_from:
    - alpine
    - golang
".
Definition golden_pipeline_build_long : string := "---
kind: pipeline
name: default

platform:
  os: linux
  arch: amd64

steps:
- name: test_build
  build:
    image: octocat/hello-world
    args:
      baz: boo
      foo: bar
    cache_from:
    - alpine
    - golang
    context: .
    labels:
      qux: qoo

...
".
Example case_pipeline_build_long : fmt in_pipeline_build_long = Ok golden_pipeline_build_long /\ fmt golden_pipeline_build_long = Ok golden_pipeline_build_long.
Proof. split; vm_compute; reflexivity. Qed.

Definition in_pipeline_build_short : string := "---
kind: pipeline
name: default

steps:
- name: test_build
  build: octocat/hello-world".
Definition golden_pipeline_build_short : string := "---
kind: pipeline
name: default

platform:
  os: linux
  arch: amd64

steps:
- name: test_build
  build: octocat/hello-world

...
".
Example case_pipeline_build_short : fmt in_pipeline_build_short = Ok golden_pipeline_build_short /\ fmt golden_pipeline_build_short = Ok golden_pipeline_build_short.
Proof. split; vm_compute; reflexivity. Qed.

Definition in_pipeline_clone_depth : string := "---
kind: pipeline
name: default

clone:
  depth: 50

steps:
- name: test
  image: golang
  commands:
  - go build
  - go test -v
".
Definition golden_pipeline_clone_depth : string := "---
kind: pipeline
name: default

platform:
  os: linux
  arch: amd64

clone:
  depth: 50

steps:
- name: test
  image: golang
  commands:
  - go build
  - go test -v

...
".
Example case_pipeline_clone_depth : fmt in_pipeline_clone_depth = Ok golden_pipeline_clone_depth /\ fmt golden_pipeline_clone_depth = Ok golden_pipeline_clone_depth.
Proof. split; vm_compute; reflexivity. Qed.

Definition in_pipeline_clone_disable : string := "---
kind: pipeline
name: default

clone:
  disable: true

steps:
- name: webhook
  image: alpine
  commands:
  - curl -x POST http://abc.com:80/~smith/home.html
".
Definition golden_pipeline_clone_disable : string := "---
kind: pipeline
name: default

platform:
  os: linux
  arch: amd64

clone:
  disable: true

steps:
- name: webhook
  image: alpine
  commands:
  - curl -x POST http://abc.com:80/~smith/home.html

...
".
Example case_pipeline_clone_disable : fmt in_pipeline_clone_disable = Ok golden_pipeline_clone_disable /\ fmt golden_pipeline_clone_disable = Ok golden_pipeline_clone_disable.
Proof. split; vm_compute; reflexivity. Qed.

Definition in_pipeline_clone_skip_verify : string := "---
kind: pipeline
name: default

clone:
  skip_verify: true

steps:
- name: webhook
  image: alpine
  commands:
  - curl -x POST http://abc.com:80/~smith/home.html
".
Definition golden_pipeline_clone_skip_verify : string := "---
kind: pipeline
name: default

platform:
  os: linux
  arch: amd64

clone:
  skip_verify: true

steps:
- name: webhook
  image: alpine
  commands:
  - curl -x POST http://abc.com:80/~smith/home.html

...
".
Example case_pipeline_clone_skip_verify : fmt in_pipeline_clone_skip_verify = Ok golden_pipeline_clone_skip_verify /\ fmt golden_pipeline_clone_skip_verify = Ok golden_pipeline_clone_skip_verify.
Proof. split; vm_compute; reflexivity. Qed.

Definition in_pipeline_concurrency : string := "---
kind: pipeline
name: default

concurrency:
  limit: 1

steps:
- name: webhook
  image: alpine
  commands:
  - curl -x POST http://abc.com:80/~smith/home.html
".
Definition golden_pipeline_concurrency : string := "---
kind: pipeline
name: default

platform:
  os: linux
  arch: amd64

concurrency:
  limit: 1

steps:
- name: webhook
  image: alpine
  commands:
  - curl -x POST http://abc.com:80/~smith/home.html

...
".
Example case_pipeline_concurrency : fmt in_pipeline_concurrency = Ok golden_pipeline_concurrency /\ fmt golden_pipeline_concurrency = Ok golden_pipeline_concurrency.
Proof. split; vm_compute; reflexivity. Qed.

Definition in_pipeline_depends : string := "kind: pipeline
name: default

steps:
  - name: build
    image: golang
    commands:
      - go build

  - name: test
    image: golang
    commands:
      - go build
      - go test -v
    depends_on:
    - build

depends_on:
  - foo
  - bar
".
Definition golden_pipeline_depends : string := "---
kind: pipeline
name: default

platform:
  os: linux
  arch: amd64

steps:
- name: build
  image: golang
  commands:
  - go build

- name: test
  image: golang
  commands:
  - go build
  - go test -v
  depends_on:
  - build

depends_on:
- foo
- bar

...
".
Example case_pipeline_depends : fmt in_pipeline_depends = Ok golden_pipeline_depends /\ fmt golden_pipeline_depends = Ok golden_pipeline_depends.
Proof. split; vm_compute; reflexivity. Qed.

Definition in_pipeline_image_pull_secrets : string := "kind: pipeline
name: default

steps:
  - name: build
    image: golang
    commands:
      - go build

image_pull_secrets:
- dockerhub
".
Definition golden_pipeline_image_pull_secrets : string := "---
kind: pipeline
name: default

platform:
  os: linux
  arch: amd64

steps:
- name: build
  image: golang
  commands:
  - go build

image_pull_secrets:
- dockerhub

...
".
Example case_pipeline_image_pull_secrets : fmt in_pipeline_image_pull_secrets = Ok golden_pipeline_image_pull_secrets /\ fmt golden_pipeline_image_pull_secrets = Ok golden_pipeline_image_pull_secrets.
Proof. split; vm_compute; reflexivity. Qed.

Definition in_pipeline_node : string := "kind: pipeline
name: default

steps:
  - name: build
    image: golang
    commands:
      - go build

  - name: test
    image: golang
    commands:
      - go build
      - go test -v
    depends_on:
    - build

node:
  disk: ssd
".
Definition golden_pipeline_node : string := "---
kind: pipeline
name: default

platform:
  os: linux
  arch: amd64

steps:
- name: build
  image: golang
  commands:
  - go build

- name: test
  image: golang
  commands:
  - go build
  - go test -v
  depends_on:
  - build

node:
  disk: ssd

...
".
Example case_pipeline_node : fmt in_pipeline_node = Ok golden_pipeline_node /\ fmt golden_pipeline_node = Ok golden_pipeline_node.
Proof. split; vm_compute; reflexivity. Qed.

Definition in_pipeline_ports : string := "kind: pipeline
name: default

steps:
- name: redis
  pull: always
  detatch: true
  image: redis:latest
  ports:
  - 6379
  - port: 6379
    host: 6379
    protocol: TCP
".
Definition golden_pipeline_ports : string := "---
kind: pipeline
name: default

platform:
  os: linux
  arch: amd64

steps:
- name: redis
  pull: always
  image: redis:latest
  ports:
  - 6379
  - port: 6379
    host: 6379
    protocol: TCP

...
".
Example case_pipeline_ports : fmt in_pipeline_ports = Ok golden_pipeline_ports /\ fmt golden_pipeline_ports = Ok golden_pipeline_ports.
Proof. split; vm_compute; reflexivity. Qed.

Definition in_pipeline_push : string := "kind: pipeline
name: default

steps:
- name: test_build
  push: octocat/hello-world".
Definition golden_pipeline_push : string := "---
kind: pipeline
name: default

platform:
  os: linux
  arch: amd64

steps:
- name: test_build
  push: octocat/hello-world

...
".
Example case_pipeline_push : fmt in_pipeline_push = Ok golden_pipeline_push /\ fmt golden_pipeline_push = Ok golden_pipeline_push.
Proof. split; vm_compute; reflexivity. Qed.

Definition in_pipeline_settings : string := "kind: pipeline
name: default

steps:
- name: notify
  image: plugins/slack
  settings:
    token:
      from_secret: token
    root: general
    dry_run: false
    labels:
    - foo
    - bar
    - baz
".
Definition golden_pipeline_settings : string := "---
kind: pipeline
name: default

platform:
  os: linux
  arch: amd64

steps:
- name: notify
  image: plugins/slack
  settings:
    dry_run: false
    labels:
    - foo
    - bar
    - baz
    root: general
    token:
      from_secret: token

...
".
Example case_pipeline_settings : fmt in_pipeline_settings = Ok golden_pipeline_settings /\ fmt golden_pipeline_settings = Ok golden_pipeline_settings.
Proof. split; vm_compute; reflexivity. Qed.

Definition in_pipeline_trigger : string := "kind: pipeline
name: default

steps:
  - name: test
    image: golang
    commands:
      - go build
      - go test -v

trigger:
  branch:
    - master
    - develop
  event:
    include:
      - push
      - pull_request
    exclude:
      - tag
".
Definition golden_pipeline_trigger : string := "---
kind: pipeline
name: default

platform:
  os: linux
  arch: amd64

steps:
- name: test
  image: golang
  commands:
  - go build
  - go test -v

trigger:
  branch:
  - master
  - develop
  event:
    include:
    - push
    - pull_request
    exclude:
    - tag

...
".
Example case_pipeline_trigger : fmt in_pipeline_trigger = Ok golden_pipeline_trigger /\ fmt golden_pipeline_trigger = Ok golden_pipeline_trigger.
Proof. split; vm_compute; reflexivity. Qed.

Definition in_pipeline_volumes : string := "---
kind: pipeline
name: default

steps:
- name: compile
  image: golang
  commands:
  - go test
  - go build

- name: build
  image: docker
  commands:
  - docker build .
  volumes:
  - name: sock
    path: /var/run/docker.sock

volumes:
- name: temp
  temp:
    medium: memory
- name: empty
  temp: {}
- name: sock
  host:
    path: /var/run/docker.sock

depends_on:
- foo
- bar
".
Definition golden_pipeline_volumes : string := "---
kind: pipeline
name: default

platform:
  os: linux
  arch: amd64

steps:
- name: compile
  image: golang
  commands:
  - go test
  - go build

- name: build
  image: docker
  commands:
  - docker build .
  volumes:
  - name: sock
    path: /var/run/docker.sock

volumes:
- name: temp
  temp:
    medium: memory
- name: empty
  temp: {}
- name: sock
  host:
    path: /var/run/docker.sock

depends_on:
- foo
- bar

...
".
Example case_pipeline_volumes : fmt in_pipeline_volumes = Ok golden_pipeline_volumes /\ fmt golden_pipeline_volumes = Ok golden_pipeline_volumes.
Proof. split; vm_compute; reflexivity. Qed.

Definition in_pipeline_workspace : string := "kind: pipeline
name: default

workspace:
  base: /go
  path: src/github.com/octocat/hello-world

steps:
- name: test
  image: golang
  commands:
    - go build
    - go test -v
".
Definition golden_pipeline_workspace : string := "---
kind: pipeline
name: default

platform:
  os: linux
  arch: amd64

workspace:
  base: /go
  path: src/github.com/octocat/hello-world

steps:
- name: test
  image: golang
  commands:
  - go build
  - go test -v

...
".
Example case_pipeline_workspace : fmt in_pipeline_workspace = Ok golden_pipeline_workspace /\ fmt golden_pipeline_workspace = Ok golden_pipeline_workspace.
Proof. split; vm_compute; reflexivity. Qed.

Definition in_secret : string := "kind: secret
name: username

data: N2NmYjA3ODQwNTY1ODFlY2E5MGJmOWI1NDk0NDFhMTEK
".
Definition golden_secret : string := "---
kind: secret
name: username
data: >
  N2NmYjA3ODQwNTY1ODFlY2E5MGJmOWI1NDk0NDFhMTEK

...
".
Example case_secret : fmt in_secret = Ok golden_secret /\ fmt golden_secret = Ok golden_secret.
Proof. split; vm_compute; reflexivity. Qed.

Definition in_secret_get : string := "kind: secret
name: username
get:
  path: secret/data/docker
  name: username
".
Definition golden_secret_get : string := "---
kind: secret
name: username

get:
  path: secret/data/docker
  name: username

...
".
Example case_secret_get : fmt in_secret_get = Ok golden_secret_get /\ fmt golden_secret_get = Ok golden_secret_get.
Proof. split; vm_compute; reflexivity. Qed.

Definition in_services : string := "kind: pipeline
name: default

steps:
- name: test
  image: golang
  commands:
    - go build
    - go test -v

services:
- name: redis
  image: redis:localhost
  ports:
  - 6379
  entrypoint:
  - /bin/redis-server
  command:
  - --port
  - 6380
- name: mysql
  image: mysql:latest
  ports:
  - 3306
  environment:
    MYSQL_USERNAME: root
    MYSQL_PASSWORD:
      from_secret: password

depends_on:
  - foo
  - bar
".
Definition golden_services : string := "---
kind: pipeline
name: default

platform:
  os: linux
  arch: amd64

steps:
- name: test
  image: golang
  commands:
  - go build
  - go test -v

services:
- name: redis
  image: redis:localhost
  entrypoint:
  - /bin/redis-server
  command:
  - --port
  - 6380
  ports:
  - 6379

- name: mysql
  image: mysql:latest
  environment:
    MYSQL_PASSWORD:
      from_secret: password
    MYSQL_USERNAME: root
  ports:
  - 3306

depends_on:
- foo
- bar

...
".
Example case_services : fmt in_services = Ok golden_services /\ fmt golden_services = Ok golden_services.
Proof. split; vm_compute; reflexivity. Qed.

Definition in_signature : string := "kind: signature
hmac: N2NmYjA3ODQwNTY1ODFlY2E5MGJmOWI1NDk0NDFhMTEK
".
Definition golden_signature : string := "---
kind: signature
hmac: N2NmYjA3ODQwNTY1ODFlY2E5MGJmOWI1NDk0NDFhMTEK

...
".
Example case_signature : fmt in_signature = Ok golden_signature /\ fmt golden_signature = Ok golden_signature.
Proof. split; vm_compute; reflexivity. Qed.

Definition in_registry : string := "kind: registry
type: encrypted
data:
  index.docker.io: N2NmYjA3ODQwNTY1ODFlY2E5MGJmOWI1NDk0NDFhMTEK
".
Definition golden_registry : string := "---
kind: registry
type: encrypted
data:
  index.docker.io: >
    N2NmYjA3ODQwNTY1ODFlY2E5MGJmOWI1NDk0NDFhMTEK

...
".
Example case_registry : fmt in_registry = Ok ("..." +++ nl)%string /\ golden_registry <> ("..." +++ nl)%string.
Proof. split; [vm_compute; reflexivity|vm_compute; discriminate]. Qed.
