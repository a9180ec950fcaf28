"""Generate rocq/theories/FormulaConsts.v from the text of fixed_map_formula.py (never imported or run).
   usage: python3 tools/gen_consts.py /repo > rocq/theories/FormulaConsts.v"""
import re, sys
p = sys.argv[1] + '/contracts/formula/fixed_map_formula.py'
src = open(p).read().split('\n')
L = lambda a, b: '\n'.join(src[a-1:b])
scal = dict(re.findall(r'^    (_[A-Z0-9_]+) = (\S+)$', L(26, 46), re.M))
arr = {int(a): b for a, b in re.findall(r'^    _max_exp_array\[(\d+)\] = (0x[0-9a-f]+)', L(46, 176), re.M)}
assert sorted(arr) == list(range(32, 128))
gex = re.findall(r'res \+= xi \* (0x[0-9a-f]+)', L(396, 509)); assert len(gex) == 32
gden = re.search(r'res // (0x[0-9a-f]+) \+ x', L(500, 509)).group(1)
lhi = re.findall(r'if x >= (0x[0-9a-f]+):\n\s+res \+= (0x[0-9a-f]+)\n\s+x = x \* self._FIXED_1 // (0x[0-9a-f]+)', L(510, 586)); assert len(lhi) == 8
llo = re.findall(r'res \+= z \* \((0x[0-9a-f]+) - y\) // (0x[0-9a-f]+)', L(510, 586)); assert len(llo) == 8
elo = re.findall(r'res \+= z \* (0x[0-9a-f]+)$', L(587, 663), re.M); assert len(elo) == 19
emod = re.search(r'z = y = x % (0x[0-9a-f]+)', L(600, 606)).group(1)
eden = re.search(r'res = res // (0x[0-9a-f]+)', L(587, 664)).group(1)
ehi = re.findall(r'if \(x & (0x[0-9a-f]+)\) != 0:\n\s+res = res \* (0x[0-9a-f]+) // (0x[0-9a-f]+)', L(660, 687)); assert len(ehi) == 7
h = lambda s: hex(int(s, 0)) if s.startswith('0x') else s
o = ['(* GENERATED by tools/gen_consts.py from the text of /repo/contracts/formula/fixed_map_formula.py.',
     '   Every literal below is the literal at the cited line of that file. *)',
     'From Coq Require Import ZArith List.', 'Import ListNotations.', 'Local Open Scope Z_scope.', '']
def d(name, ty, val, cite): o.append('(* %s *)\nDefinition %s : %s := %s.\n' % (cite, name, ty, val))
for n, v, ln in [('ONE', '_ONE', 28), ('MAX_WEIGHT', '_MAX_WEIGHT', 29), ('MIN_PRECISION', '_MIN_PRECISION', 30),
                 ('MAX_PRECISION', '_MAX_PRECISION', 31), ('FIXED_1', '_FIXED_1', 34), ('FIXED_2', '_FIXED_2', 35),
                 ('MAX_NUM', '_MAX_NUM', 36), ('LN2_NUMERATOR', '_LN2_NUMERATOR', 39), ('LN2_DENOMINATOR', '_LN2_DENOMINATOR', 40),
                 ('OPT_LOG_MAX_VAL', '_OPT_LOG_MAX_VAL', 43), ('OPT_EXP_MAX_VAL', '_OPT_EXP_MAX_VAL', 44)]:
    d(n, 'Z', h(scal[v]), 'fixed_map_formula.py:%d %s' % (ln, v))
d('max_exp_array', 'list (option Z)', '\n  repeat None 32 ++\n  [ ' + ';\n    '.join('Some ' + h(arr[i]) for i in range(32, 128)) + ' ]',
  'fixed_map_formula.py:47-175 _max_exp_array: entries 0..31 are None (commented out in the source)')
d('general_exp_coefs', 'list Z', '\n  [ ' + ';\n    '.join(map(h, gex)) + ' ]', 'fixed_map_formula.py:412-505 the factors of xi in _general_exp, in order')
d('general_exp_divisor', 'Z', h(gden), 'fixed_map_formula.py:508')
d('optimal_log_hi', 'list (Z * Z * Z)', '\n  [ ' + ';\n    '.join('(%s, %s, %s)' % tuple(map(h, t)) for t in lhi) + ' ]',
  'fixed_map_formula.py:526-557 (threshold, added value, divisor) of the eight if-statements of _optimal_log, in order')
d('optimal_log_lo', 'list (Z * Z)', '\n  [ ' + ';\n    '.join('(%s, %s)' % tuple(map(h, t)) for t in llo) + ' ]',
  'fixed_map_formula.py:562-583 (minuend, divisor) of the eight series terms of _optimal_log, in order')
d('optimal_exp_mod', 'Z', h(emod), 'fixed_map_formula.py:604')
d('optimal_exp_coefs', 'list Z', '\n  [ ' + ';\n    '.join(map(h, elo)) + ' ]', 'fixed_map_formula.py:605-661 the factors of z in _optimal_exp, in order')
d('optimal_exp_divisor', 'Z', h(eden), 'fixed_map_formula.py:663')
d('optimal_exp_hi', 'list (Z * Z * Z)', '\n  [ ' + ';\n    '.join('(%s, %s, %s)' % tuple(map(h, t)) for t in ehi) + ' ]',
  'fixed_map_formula.py:665-685 (mask, multiplier, divisor) of the seven if-statements of _optimal_exp, in order')
print('\n'.join(o))
