#!/bin/sh
# Lists the files of _CoqProject that have no compiled object, or one older than the source (run before a commit).
cd "$(dirname "$0")/../rocq" || exit 1
for f in $(grep '\.v$' _CoqProject); do
  if [ ! -f "${f}o" ]; then echo "no object: $f"; elif [ "${f}o" -ot "$f" ]; then echo "older than its source: $f"; fi
done
for f in theories/*.v; do grep -qx "$f" _CoqProject || echo "not listed: $f"; done
