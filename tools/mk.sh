#!/bin/sh
# build helper: refresh the Makefile and build, showing only errors
cd "$(dirname "$0")/../rocq" && coq_makefile -f _CoqProject -o Makefile >/dev/null && make -j4 2>&1 | grep -v "^COQ\|^Closed under\|^make\|is up to date"
