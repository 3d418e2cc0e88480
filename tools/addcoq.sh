#!/bin/sh
# Regenerate the file list of rocq/_CoqProject (dependency order is left to coqdep).
cd "$(dirname "$0")/../rocq" || exit 1
{ echo "-Q theories Verif"; ls theories/*.v; } > _CoqProject
