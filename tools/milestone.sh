#!/bin/bash
# regenerate the Print Assumptions lines and the manifest, build, commit with the given message
cd /verif && python3 tools/assumptions.py && python3 tools/manifest.py | tail -1 && python3 tools/design.py
cd rocq && coq_makefile -f _CoqProject -o Makefile >/dev/null && make -j4 2>&1 | grep -v "^COQ\|Closed\|^make\|coqdep\|CLEAN" | head -40
cd .. && git add -A && git commit -qm "$1" && git log --oneline | head -1
