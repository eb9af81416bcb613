#!/bin/sh
# Runs the model on the test vectors of /repo/tests. Needs a compiled /verif/rocq and ssh-keygen.
set -e
here=$(cd "$(dirname "$0")" && pwd)
dir=$(mktemp -d)
export PYTHONDONTWRITEBYTECODE=1
python3 "$here/vectors.py" "$dir"
python3 "$here/devices.py" "$dir"
python3 "$here/issue.py" "$dir"
cd "$dir"
coqc -Q "$here/../rocq/theories" Verif Conf.v > out1
coqc -Q "$here/../rocq/theories" Verif Conf2.v > out2
coqc -Q "$here/../rocq/theories" Verif Conf3.v > out3
python3 "$here/check.py" "$dir"
rm -rf "$dir"
