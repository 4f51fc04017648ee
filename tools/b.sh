#!/bin/bash
# make the given theories (scratch helper)
cd /verif/rocq
[ Makefile -nt _CoqProject ] || coq_makefile -f _CoqProject -o Makefile >/dev/null
t=""; for f in "$@"; do t="$t theories/$f.vo"; done
timeout 1500 make -j4 ${t:-all} 2>&1 | grep -v '^Closed under\|COQC\|COQDEP\|^make' | head -${LM:-60}
exit ${PIPESTATUS[0]}
