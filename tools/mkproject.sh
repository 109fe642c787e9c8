#!/bin/sh
# lists every Coq file of rocq/theories in rocq/_CoqProject
cd "$(dirname "$0")/../rocq" || exit 1
{ echo "-Q theories Verif"; find theories -name '*.v' | sort; } > _CoqProject
