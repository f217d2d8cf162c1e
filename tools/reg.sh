#!/bin/sh
# register theory files: tools/reg.sh A B C
cd "$(dirname "$0")/../rocq"
for f in "$@"; do grep -qx "theories/$f.v" _CoqProject || echo "theories/$f.v" >> _CoqProject; done
