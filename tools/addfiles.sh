#!/bin/sh
# add theory files (by base name) to _CoqProject and regenerate the Makefile
cd /verif/rocq
for n in "$@"; do grep -q "theories/$n.v" _CoqProject || echo "theories/$n.v" >> _CoqProject; done
coq_makefile -f _CoqProject -o Makefile
