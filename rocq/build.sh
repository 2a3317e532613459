#!/bin/sh
# regenerate _CoqProject's file list and build
cd "$(dirname "$0")"
{ echo "-Q theories Verif"; ls theories/*.v; } > _CoqProject
coq_makefile -f _CoqProject -o Makefile
timeout 3000 make -j4 > /tmp/build.out 2>&1; rc=$?
grep -v '^COQ\|^CLEAN\|Closed under the global' /tmp/build.out
echo "build rc=$rc"
