#!/bin/sh
# Rewrite rocq/_CoqProject with every theory file.
cd "$(dirname "$0")/../rocq" || exit 1
{ echo "-Q theories Verif"; ls theories/*.v; } > _CoqProject.new && mv _CoqProject.new _CoqProject
