#!/usr/bin/env python3
"""Write rocq/theories/Spec/Signatures.v: for every array and struct function its declared parameters.
Types and array sizes come from the parameter list in the header, the direction from the
@param[in], [out] or [in, out] line of the comment above it, except where `fix` says that the
comment is missing or wrong."""
import re, os, glob, collections
root = os.path.dirname(os.path.dirname(os.path.abspath(__file__)))
G = os.path.join(root, 'rocq/theories/Gen/')
R = '/repo/include/cglm/'
SZ = {'vec2': 2, 'vec3': 3, 'vec4': 4, 'ivec2': 2, 'ivec3': 3, 'ivec4': 4, 'mat2': 4, 'mat3': 9, 'mat4': 16, 'versor': 4,
      'mat2x3': 6, 'mat2x4': 8, 'mat3x2': 6, 'mat3x4': 12, 'mat4x2': 8, 'mat4x3': 12, 'float': 1, 'int': 1}
# the comment gives no direction
fix = {('glm_%s_zero' % m, 'm'): 'out' for m in ('mat2x3', 'mat2x4', 'mat3x2', 'mat3x4', 'mat4x2', 'mat4x3')}
fix.update({('glm_swapf', 'a'): 'in,out', ('glm_swapf', 'b'): 'in,out', ('glm_vec4_broadcast', 'd'): 'out', ('glm_vec4_fill', 'v'): 'out'})
# the comment gives another direction
wrong = {('glm_ray_sphere', 'dir'): 'in', ('glm_ray_sphere', 't1'): 'out', ('glm_ray_sphere', 't2'): 'out', ('glm_quat_rotate_at', 'pivot'): 'in'}
# functions that add to (or subtract from) dest: the comment says [out]
ACC = re.compile(r'glm_i?vec[234]_(add|sub|mul|max|min)(add|sub)s?$')
acc = []; wrongs = []
# sizes of pointers to float or int other than one cell
size = {('glm_vec2', 'v'): 2, ('glm_ivec2', 'v'): 2}
value = {('glm_mat%d_swap_%s' % (n, w), w + k): 'Index %d' % n for n in (2, 3, 4) for w in ('col', 'row') for k in '12'}
def masks(n, k): return 'OneOf [%s]' % '; '.join(str(sum(((c // n ** i) % n) << (2 * i) for i in range(k))) for c in range(n ** k))
value.update({('glm_vec2_swizzle', 'mask'): masks(2, 2), ('glm_vec3_swizzle', 'mask'): masks(3, 3), ('glm_vec4_swizzle', 'mask'): 'Index 256'})
# not in the list: loops over a number of objects given at run time, float to int conversion,
# a loop whose condition depends on floats, glms_frustum_corners_at (not safe)
skip = {'glm_mat2_identity_array', 'glm_mat3_identity_array', 'glm_mat4_identity_array', 'glm_quat_identity_array', 'glm_mat4_mulN',
        'glm_ivec3_norm', 'glm_decasteljau', 'glms_ivec3_norm', 'glms_decasteljau', 'glms_mat4_mulN',
        'glms_mat2_identity_array', 'glms_mat3_identity_array', 'glms_mat4_identity_array', 'glms_quat_identity_array',
        'glms_frustum_corners_at'}
skip |= {'glms_%s_%s' % (v, w) for v in ('vec2', 'vec3', 'vec4', 'ivec2', 'ivec3', 'ivec4') for w in ('pack', 'unpack')}
lines = {}
def src(f):
    if f not in lines: lines[f] = open(R + f).read().split('\n')
    return lines[f]
files = collections.OrderedDict()
for g in sorted(glob.glob(G + '*.v')):
    b = os.path.basename(g)[:-2]
    if b.startswith(('src_', 'call_')): continue
    for m in re.finditer(r'\(\* ([\w/.-]+):(\d+)-(\d+) \*\)\nDefinition (\w+) : fundef := Fun\n', open(g).read()):
        f, l0, l1, n = m.groups()
        if n in skip or n.startswith('glm__noiseDetail'): continue
        ls = src(f)
        head = re.search(r'\bglms?\w*(?:\(\w+\))?\s*\(([^)]*)\)\s*\{', '\n'.join(ls[int(l0) - 1:int(l1)])).group(1)
        k = int(l0) - 2
        while k >= 0 and (not ls[k].strip() or re.match(r'^(CGLM_INLINE|void|float|bool|int|\w+s)\s*$', ls[k].strip())): k -= 1
        doc = ''
        if k >= 0 and ls[k].strip().endswith('*/'):
            while k >= 0 and '/*' not in ls[k]: doc = ls[k] + '\n' + doc; k -= 1
        D = {y.group(2): re.sub(r'\s', '', y.group(1)).replace('/', ',') for y in re.finditer(r'@param\s*\[\s*(in|out|in\s*[,/]\s*out)\s*\]\s*(\w+)', doc)}
        sig = []; gn = n.replace('glms_', 'glm_', 1)
        for p in re.sub(r'\s+', ' ', head).split(','):
            p = p.strip()
            if p in ('', 'void'): continue
            if not re.fullmatch(r'(?:const )?(\w+) ?(\*?) ?(?:__restrict )?(\w+)((?:\[\w+\])*)', p): raise SystemExit(n + ': ' + p)
            t, st, nm, dims = re.fullmatch(r'(?:const )?(\w+) ?(\*?) ?(?:__restrict )?(\w+)((?:\[\w+\])*)', p).groups()
            if not st and not dims and t in ('float', 'int', 'uint32_t', 'size_t', 'bool', 'glm_euler_seq'):
                sig.append(value.get((gn, nm)) or {'float': 'Float', 'bool': 'Boolean'}.get(t, 'Integer')); continue
            base = t[:-1] if t.endswith('s') and t[:-1] in SZ else t
            sz = size.get((gn, nm), SZ[base])
            if p.startswith('const '): sz = SZ[re.fullmatch(r'glms?_(\w+)_make', n).group(1).replace('quat', 'versor')]
            for x in re.findall(r'\[(\w+)\]', dims): sz *= int(x)
            e = 'Int' if t.startswith('i') else 'Flt'
            if base != t and not st and not dims: sig.append('Struct %s %d' % (e, sz)); continue
            d = fix.get((gn, nm)) or wrong.get((gn, nm)) or D.get(nm)
            if ACC.match(n) and nm == 'dest': d = 'in,out'
            if (gn, nm) in wrong or (ACC.match(n) and nm == 'dest'): wrongs.append('%s(%s)' % (n, nm))
            if d is None: d = 'out' if nm == 'dest' else 'in'   # no direction given
            sig.append({'in': 'Reads %s %d' % (e, sz), 'out': 'Writes %d' % sz, 'in,out': 'Updates %s %d' % (e, sz)}[d])
        files.setdefault(b, []).append((n, sig))
r = '''(** * The declared parameters of the array and struct functions

    Written by tools/sigs.py from the parameter lists and the comments of the headers.
    Where the comment gives no direction, dest is written and the others are read, except those in tools/sigs.py; the comments
    that give the wrong direction are those of
%s *)

From Coq Require Import String List ZArith.
From Verif Require Import MiniC Cglm.
From Verif.Gen Require Export %s.
From Verif.Spec Require Export Types.
Import ListNotations.
Local Open Scope Z_scope.
'''
import textwrap
r = r % (textwrap.fill(', '.join(wrongs) + '.', 95, initial_indent='    ', subsequent_indent='    '), ' '.join(b for b in files if b.startswith('struct_')))
for b, l in files.items():
    r += '\nDefinition sig_%s : list (fundef * list param) := [\n' % b
    r += ';\n'.join('  (%s, [%s])' % (n, '; '.join(s)) for n, s in l) + '].\n'
r += '\nDefinition signatures : list (fundef * list param) :=\n  ' + ' ++ '.join('sig_' + b for b in files) + '.\n'
r = r.replace(' ++ sig_', '\n  ++ sig_')
open(os.path.join(root, 'rocq/theories/Spec/Signatures.v'), 'w').write(r)
print(sum(map(len, files.values())), len(wrongs))
