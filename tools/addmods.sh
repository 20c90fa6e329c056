#!/bin/sh
# append modules to _CoqProject (once each)
for m in "$@"; do grep -q "theories/$m.v" /verif/rocq/_CoqProject || echo "theories/$m.v" >> /verif/rocq/_CoqProject; done
