#!/bin/sh
# Build the development from scratch-compatible state (incremental).
cd /verif/rocq && coq_makefile -f _CoqProject -o Makefile >/dev/null && timeout 3600 make -j4 2>&1 | grep -v -e '^Closed under' -e '^COQC' -e '^COQDEP' -e '^Axioms:' 
