"""Compare /repo/tn/english/data/number/cardinal_number_name.far with the number names of
rocq/theories/EnTnModel.v (module Names, re-implemented below rule by rule).

The archive is read as bytes: an OpenFst header, then for each state its final weight and its
arcs.  Checked: every number below 10^6; every pattern of zero, small and large groups of
three digits up to fifteen digits; random numbers; and that texts of digits that are not
numbers without zeros in front, or have more than fifteen digits, have no output."""
import itertools
import random
import struct
import sys

PATH = sys.argv[1] if len(sys.argv) > 1 else '/repo/tn/english/data/number/cardinal_number_name.far'
DATA = PATH[:PATH.rfind('/') + 1]


def load(path):
    data = open(path, 'rb').read()
    pos = data.find(struct.pack('<i', 2125659606)) + 4

    def number(kind):
        nonlocal pos
        value = struct.unpack_from('<' + kind, data, pos)[0]
        pos += struct.calcsize(kind)
        return value

    def string():
        nonlocal pos
        n = number('i')
        pos += n
        return data[pos - n:pos].decode()

    kind, arc_kind = string(), string()
    assert (kind, arc_kind) == ('vector', 'standard'), (kind, arc_kind)
    number('i'), number('i'), number('Q')
    start, nstates, _ = number('q'), number('q'), number('q')
    states = []
    for _ in range(nstates):
        final = number('f')
        arcs = [(number('i'), number('i'), number('f'), number('i')) for _ in range(number('q'))]
        states.append((final, arcs))
    return start, states


START, STATES = load(PATH)
INF = float('inf')


def close(current):
    todo = list(current.items())
    while todo:
        (q, out), w = todo.pop()
        for i, o, aw, nxt in STATES[q][1]:
            if i == 0:
                key = nxt, out + (chr(o) if o else '')
                if key not in current or current[key] > w + aw + 1e-9:
                    current[key] = w + aw
                    todo.append((key, w + aw))
    return current


def step(current, c):
    new = {}
    for (q, out), w in current.items():
        for i, o, aw, nxt in STATES[q][1]:
            if i == ord(c):
                key = nxt, out + (chr(o) if o else '')
                if key not in new or new[key] > w + aw:
                    new[key] = w + aw
    return close(new)


def finals(current):
    return {(out, round(w + STATES[q][0], 6)) for (q, out), w in current.items() if STATES[q][0] != INF}


def outputs(text):
    current = close({(START, ''): 0.0})
    for c in text:
        current = step(current, c)
    return finals(current)


def table(name):
    rows = [line.rstrip('\n').split('\t') for line in open(DATA + name + '.tsv')]
    return {b: a for a, b in rows}


digit, teen, ty = table('digit'), table('teen'), table('ty')
zero = table('zero')


def tens(d):
    if d in teen:
        return teen[d]
    return ty[d[0]] if d[1] == '0' else ty[d[0]] + ' ' + digit[d[1]]


def after_hundred(d):
    return '' if d == '00' else ' ' + (digit[d[1]] if d[0] == '0' else tens(d))


def hundreds(d):
    return digit[d[0]] + ' hundred' + after_hundred(d[1:])


def up_to_999(d):
    return [None, lambda x: digit[x], tens, hundreds][len(d)](d)


def group(d, name):
    if d == '000':
        return ''
    if d[0] != '0':
        return ' ' + hundreds(d) + name
    return ' ' + (tens(d[1:]) if d[1] != '0' else digit[d[2]]) + name


SCALE = ['', ' thousand', ' million', ' billion', ' trillion']


def names(d):
    if d in zero:
        return zero[d]
    groups = []
    while d:
        groups.insert(0, d[-3:])
        d = d[:-3]
    n = len(groups) - 1
    return up_to_999(groups[0]) + SCALE[n] + ''.join(
        group(g, SCALE[n - 1 - k]) for k, g in enumerate(groups[1:]))


count = 0


def expect(found, d):
    global count
    count += 1
    want = {(names(d), 0.0)} if d == '0' or d and d[0] != '0' and len(d) <= 15 else set()
    assert found == want, (d, found, want)


def below(current, prefix, n):
    expect(finals(current), prefix)
    if n:
        for c in '0123456789':
            below(step(current, c), prefix + c, n - 1)


below(close({(START, ''): 0.0}), '', 6)
samples = ['000', '001', '009', '010', '013', '020', '045', '100', '101', '110', '118', '999']
firsts = ['1', '7', '10', '11', '30', '58', '100', '215', '740', '999']
for n in range(1, 5):
    for rest in itertools.product(samples, repeat=n) if n < 4 else (
            [random.choice(samples) for _ in range(4)] for _ in range(4000)):
        for first in firsts if n < 3 else [random.choice(firsts)]:
            d = first + ''.join(rest)
            expect(outputs(d), d)
random.seed(1)
for _ in range(20000):
    d = str(random.randrange(10 ** random.randint(7, 17)))
    expect(outputs(d), d)
print(count, 'texts agree')
