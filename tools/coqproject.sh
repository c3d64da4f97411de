#!/bin/sh
# Regenerate rocq/_CoqProject: the fixed flags line, then every theory file.
cd "$(dirname "$0")/../rocq" || exit 1
{ echo "-Q theories Verif"; ls theories/*.v; } > _CoqProject
