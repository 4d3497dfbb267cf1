#!/usr/bin/env python3
"""ctable.py FILE NAME: print the C array NAME of /repo/FILE as a Coq list of N."""
import re, sys
def table(file, name):
    s = open('/repo/' + file).read()
    m = re.search(r'\b' + name + r'\s*(?:\[[^\]]*\])+\s*=\s*\{(.*?)\};', s, re.S)
    body = re.sub(r'/\*.*?\*/', '', m.group(1), flags=re.S)
    return [x for x in re.findall(r'0[xX][0-9A-Fa-f]+|\b\d+\b', body)]
def coq(l, per=8):
    rows = ['; '.join(l[i:i+per]) for i in range(0, len(l), per)]
    return '  [' + ';\n   '.join(rows) + ']'
if __name__ == '__main__':
    l = table(sys.argv[1], sys.argv[2])
    sys.stderr.write('%d entries\n' % len(l))
    print(coq(l, int(sys.argv[3]) if len(sys.argv) > 3 else 8))
