# the notes are the rows of the table of properties in DESIGN.md
for row in open(os.path.join(root, 'DESIGN.md')):
    m = re.match(r'\| (C\d\d[^|]*) \| ', row)
    if not m:
        continue
    cells = [c.strip() for c in row.strip().strip('|').split(' | ')]
    if len(cells) < 4:
        continue
    ids = []
    for part in re.split(r',\s*', cells[0].strip()):
        r = re.match(r'C(\d\d)\s*[-–]\s*C(\d\d)$', part)
        ids += ['C%02d' % k for k in range(int(r.group(1)), int(r.group(2)) + 1)] if r else [part]
    for i in ids:
        n = 'Model: %s. Specification: %s. Proof: %s.' % (cells[1], cells[2], ' | '.join(cells[3:]))
        if any(t.endswith('_refuted') for t in names.get(i, [])):
            n += ' The theorems ending in _refuted show, by a case, that a stronger expectation fails.'
        notes[i] = (notes[i] + ' ' + n) if i in notes else n
