#!/bin/bash
# Runs the model on the data files of the repository's own tests and compares
# the results with the verified arrays that come with them.  Needs the built
# project, OCaml with zarith, and Python 3.  Works in a temporary directory.
set -e
here=$(cd "$(dirname "$0")" && pwd); th=$here/../../rocq/theories; data=/repo/tests/files
w=$(mktemp -d); trap 'rm -rf "$w"' EXIT
cp "$here"/*.py "$w"; for m in drv hydro struc asm; do cp "$here/$m.ml.txt" "$w/$m.ml"; done; cp "$here/described.ml.txt" "$w/described.ml"; cp "$here/extract.txt" "$w/extract_model.v"; cp "$here/survey.txt" "$w/extract_survey.v"; cd "$w"
coqc -Q "$th" Verif extract_model.v > /dev/null 2>&1
for m in hydro struc asm; do ocamlfind ocamlopt -w -a -package zarith -linkpkg model.mli model.ml drv.ml $m.ml -o $m 2> /dev/null; done
ulimit -s unlimited
./hydro $data/hydro slowdrift_G1.SIF > hydro.out
s=$data/struc/single_super_elem
./struc $s test01_1stord_linstat_R1.SIU > 1st.out & ./struc $s test01_2ndord_linstat_R1.SIU > 2nd.out; wait
python3 compare.py hydro.out 1st.out 2nd.out
for t in T100.FEM R100.SIU; do echo "-- $t"; ./asm $data/struc/assembly $t; done
# files taken apart without the reading functions (Describe, Survey)
coqc -Q "$th" Verif extract_survey.v > /dev/null 2>&1
ocamlfind ocamlopt -w -a -package zarith -linkpkg survey.mli survey.ml described.ml -o described 2> /dev/null
a=$data/struc/assembly
./described -a $a T100.FEM T FEM 100; ./described -a $a R100.SIU R SIU 100
for t in 1 2 3 10 20; do ./described $a/T$t.FEM $t true; done
for t in 1H3 2H4 3H6 3H7 3H8 3H9; do ./described $a/R$t.SIU ${t%H*} true; done
# (complex node results are not described, C16)
for f in $s/*; do case $f in *complexLC2_R1*) ;; *) ./described $f 1 false;; esac; done
./described $data/hydro/slowdrift_G1.SIF 1 false
