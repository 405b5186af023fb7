#!/bin/sh
# after a build: what Print Assumptions says for each theorem of the property files
cd "$(dirname "$0")/../rocq/theories" || exit 1
for f in Prop_*.v; do
  coqc -Q . Verif "$f" | awk -v f="$f" '/Closed under the global context/ {n++} /Axioms:/ {a=1} a {print f": "$0} END {print f": closed "n}'
done
