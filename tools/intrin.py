"""SIMD intrinsics as the vector primitives of rocq/theories/MiniC.v.

A vector is a list of lanes, lane 0 first (lowest address, least significant).  Each entry
below states the lanes of the result; the meaning is that of the vendor manuals (Intel
Intrinsics Guide, Arm Neon Intrinsics Reference, WebAssembly SIMD)."""
import re

S4, S2, S8 = ('simd', 4), ('simd', 2), ('simd', 8)
FLOAT, INT, VOID = ('float',), ('int',), ('void',)

def bi(p, *a): return 'builtin (%s)$(%s)' % (p, ', '.join(a)) if ' ' in p else 'builtin %s$(%s)' % (p, ', '.join(a))
def perm(l, *a): return bi('PVperm [%s]' % '; '.join('(%d, %d)%%nat' % x for x in l), *a)
def low(n): return [(0, k) for k in range(n)]
def sh(imm): return [(imm >> (2 * k)) & 3 for k in range(4)]

LANE2 = {'add': 'OAdd', 'sub': 'OSub', 'mul': 'OMul', 'div': 'ODiv'}

def simd_call(L, fn, args, stmt=False):
    def const(e): return L.p.const(e)
    def vec(e):
        a, t = L.rv(e)
        if t[0] != 'simd': raise ValueError('vector expected: %s %r' % (fn, t))
        return a
    def flt(e): return L.value(e, FLOAT)
    def addr(e):
        a, t = L.rv(e)
        if t[0] not in ('ptr', 'arr'): raise ValueError('pointer expected: ' + fn)
        return a
    def ld(n, p): return '(EVLd %d %s)' % (n, p)
    def ldz(n, p): return perm(low(n) + [(1, 0)] * (4 - n), ld(n, p), bi('PVsplat 1', '(EF 0 1)'))
    def p2(o, a, b): return bi('PV2 ' + o, a, b)
    def p1(o, a): return bi('PV1 ' + o, a)
    def ss(full, a): return perm([(0, 0), (1, 1), (1, 2), (1, 3)], full, a)
    def signs(l):
        r = []
        for x in l:
            v = const(x) & 0xffffffff
            if v not in (0, 0x80000000): raise ValueError('mask %x' % v)
            r.append('true' if v else 'false')
        return bi('PVsigns [%s]' % '; '.join(r))
    def name(e): return e[1] if e[0] == 'id' else None

    # ---- statements
    if stmt:
        st = {'_mm_store_ps': 4, '_mm_storeu_ps': 4, '_mm256_store_ps': 8, '_mm256_storeu_ps': 8, '_mm_store_ss': 1,
              '_mm_storel_pi': 2, 'vst1q_f32': 4, 'wasm_v128_store': 4}
        if fn in st: return ['SVSt %d %s %s' % (st[fn], addr(args[0]), vec(args[1]))]
        if fn in ('vst1_lane_f32', 'vst1q_lane_f32', 'wasm_v128_store32_lane'):
            return ['SVSt 1 %s %s' % (addr(args[0]), perm([(0, const(args[2]))], vec(args[1])))]
        if fn == 'wasm_v128_store64_lane':
            k = const(args[2]); return ['SVSt 2 %s %s' % (addr(args[0]), perm([(0, 2 * k), (0, 2 * k + 1)], vec(args[1])))]
        if fn == '_MM_TRANSPOSE4_PS':
            vs = [L.look(name(a))[0] for a in args]
            ts = [L.temp(S4)[0] for _ in args]
            qs = ['"%s"' % v for v in vs]
            return ['"%s" <~ %s' % (t, perm([(j, k) for j in range(4)], *qs)) for k, t in enumerate(ts)] + \
                   ['"%s" <~ "%s"' % (v, t) for v, t in zip(vs, ts)]
        return None

    # ---- x86
    if fn in ('_mm_load_ps', '_mm_loadu_ps', 'vld1q_f32', 'wasm_v128_load'): return ld(4, addr(args[0])), S4
    if fn in ('_mm256_load_ps', '_mm256_loadu_ps'): return ld(8, addr(args[0])), S8
    if fn == 'vld1_f32': return ld(2, addr(args[0])), S2
    if fn in ('_mm_load_ss', 'wasm_v128_load32_zero'): return ldz(1, addr(args[0])), S4
    if fn in ('_mm_loadl_epi64', 'wasm_v128_load64_zero'): return ldz(2, addr(args[0])), S4
    if fn in ('_mm_castsi128_ps', '_mm_castps_si128', '_mm256_castsi256_ps', 'vreinterpretq_f32_s32', 'vreinterpretq_s32_f32'):
        a, t = L.rv(args[0]); return a, t
    m = re.match(r'_mm(256)?_(add|sub|mul|div)_ps$', fn)
    if m: return p2(LANE2[m.group(2)], vec(args[0]), vec(args[1])), (S8 if m.group(1) else S4)
    m = re.match(r'v(add|sub|mul|div)q_f32$', fn) or re.match(r'wasm_f32x4_(add|sub|mul|div)$', fn)
    if m: return p2(LANE2[m.group(1)], vec(args[0]), vec(args[1])), S4
    m = re.match(r'v(add|sub|mul)_f32$', fn)
    if m: return p2(LANE2[m.group(1)], vec(args[0]), vec(args[1])), S2
    if fn == '_mm_add_ss':
        a = vec(args[0]); return ss(p2('OAdd', a, vec(args[1])), a), S4
    if fn == '_mm_min_ps': return bi('PVpick CLt', vec(args[0]), vec(args[1])), S4      # a < b ? a : b
    if fn == '_mm_max_ps': return bi('PVpick CGt', vec(args[0]), vec(args[1])), S4      # a > b ? a : b
    if fn == '_mm_min_ss':
        a = vec(args[0]); return ss(bi('PVpick CLt', a, vec(args[1])), a), S4
    if fn == '_mm_max_ss':
        a = vec(args[0]); return ss(bi('PVpick CGt', a, vec(args[1])), a), S4
    if fn in ('_mm_sqrt_ps', 'wasm_f32x4_sqrt', 'vsqrtq_f32'): return p1('OSqrt', vec(args[0])), S4
    if fn == '_mm_sqrt_ss':
        # only lane 0 is taken by the callers; the upper lanes are copied
        a = vec(args[0]); return perm([(1, 0), (0, 1), (0, 2), (0, 3)], a, p1('OSqrt', perm([(0, 0)], a))), S4
    if fn in ('_mm_rcp_ps', 'vrecpeq_f32'): return p1('ORcp', vec(args[0])), S4
    if fn == 'vrecpsq_f32': return p2('OSub', bi('PVsplat 4', '(EF 2 1)'), p2('OMul', vec(args[0]), vec(args[1]))), S4
    if fn == '_mm_xor_ps' or fn == '_mm256_xor_ps': return bi('PVxor', vec(args[0]), vec(args[1])), (S8 if '256' in fn else S4)
    if fn in ('veorq_s32', 'wasm_v128_xor'): return bi('PVxor', vec(args[0]), vec(args[1])), S4
    if fn == '_mm_and_ps': return bi('PVand', vec(args[0]), vec(args[1])), S4
    if fn == '_mm_or_ps': return bi('PVor', vec(args[0]), vec(args[1])), S4
    if fn == '_mm_andnot_ps': return bi('PVandnot', vec(args[0]), vec(args[1])), S4
    if fn == '_mm_cmpgt_ps': return bi('PVcmp CGt', vec(args[0]), vec(args[1])), S4
    if fn == '_mm_cmplt_ps': return bi('PVcmp CLt', vec(args[0]), vec(args[1])), S4
    if fn in ('_mm_cvtss_f32',): return bi('PVlane 0', vec(args[0])), FLOAT
    if fn in ('_mm_permute_ps', '_mm_shuffle_epi32'): return perm([(0, k) for k in sh(const(args[1]))], vec(args[0])), S4
    if fn == '_mm_shuffle_ps':
        s = sh(const(args[2])); return perm([(0, s[0]), (0, s[1]), (1, s[2]), (1, s[3])], vec(args[0]), vec(args[1])), S4
    if fn == '_mm_movehl_ps': return perm([(1, 2), (1, 3), (0, 2), (0, 3)], vec(args[0]), vec(args[1])), S4
    if fn == '_mm_movelh_ps': return perm([(0, 0), (0, 1), (1, 0), (1, 1)], vec(args[0]), vec(args[1])), S4
    if fn == '_mm_movehdup_ps': return perm([(0, 1), (0, 1), (0, 3), (0, 3)], vec(args[0])), S4
    if fn == '_mm_unpackhi_ps': return perm([(0, 2), (1, 2), (0, 3), (1, 3)], vec(args[0]), vec(args[1])), S4
    if fn == '_mm_unpacklo_ps': return perm([(0, 0), (1, 0), (0, 1), (1, 1)], vec(args[0]), vec(args[1])), S4
    if fn == '_mm256_unpacklo_ps': return perm([(0, 0), (1, 0), (0, 1), (1, 1), (0, 4), (1, 4), (0, 5), (1, 5)], vec(args[0]), vec(args[1])), S8
    if fn == '_mm256_unpackhi_ps': return perm([(0, 2), (1, 2), (0, 3), (1, 3), (0, 6), (1, 6), (0, 7), (1, 7)], vec(args[0]), vec(args[1])), S8
    if fn == '_mm256_permute2f128_ps':
        i = const(args[2])
        if i & 0x88: raise ValueError('permute2f128 zero')
        half = lambda c: [(c >> 1, 4 * (c & 1) + k) for k in range(4)]
        return perm(half(i & 3) + half((i >> 4) & 3), vec(args[0]), vec(args[1])), S8
    if fn == '_mm256_permutevar_ps':
        c = args[1]
        if c[0] == 'id': c = L.ivec[c[1]]
        if c[0] != 'call' or c[1] != ('id', '_mm256_set_epi32'): raise ValueError('permutevar')
        ix = [const(x) & 3 for x in reversed(c[2])]
        return perm([(0, (k & 4) + ix[k]) for k in range(8)], vec(args[0])), S8
    if fn in ('_mm_set1_ps', 'vdupq_n_f32', 'wasm_f32x4_splat', 'wasm_f32x4_const_splat'): return bi('PVsplat 4', flt(args[0])), S4
    if fn in ('_mm_broadcast_ss', '_mm256_broadcast_ss'):
        n = 8 if '256' in fn else 4
        e = args[0]
        x = flt(e[1]) if e[0] == 'addr' else '!' + addr(e)
        return bi('PVsplat %d' % n, x), ('simd', n)
    if fn == '_mm_broadcastss_ps': return perm([(0, 0)] * 4, vec(args[0])), S4
    if fn == '_mm256_setzero_ps': return bi('PVsplat 8', '(EF 0 1)'), S8
    if fn == '_mm_setzero_ps': return bi('PVsplat 4', '(EF 0 1)'), S4
    if fn == '_mm_set_ps': return bi('PVmk', *[flt(a) for a in reversed(args)]), S4
    if fn == '_mm_set_epi32': return signs(list(reversed(args))), S4
    if fn == '_mm_set1_epi32': return signs([args[0]] * 4), S4
    if fn == '_mm256_set1_epi32': return signs([args[0]] * 8), S8
    m = re.match(r'_mm(256)?_f(n?)m(add|sub)_ps$', fn)
    if m:
        a, b, c = [vec(x) for x in args]
        if m.group(2): a = p1('ONeg', a)
        if m.group(3) == 'sub': c = p1('ONeg', c)
        return bi('PVfma', a, b, c), (S8 if m.group(1) else S4)
    if fn == '_mm_hadd_ps':
        a, b = vec(args[0]), vec(args[1])
        return p2('OAdd', perm([(0, 0), (0, 2), (1, 0), (1, 2)], a, b), perm([(0, 1), (0, 3), (1, 1), (1, 3)], a, b)), S4

    # ---- NEON
    if fn in ('vdupq_lane_f32', 'vdup_lane_f32'):
        n = 4 if 'q' in fn else 2
        return perm([(0, const(args[1]))] * n, vec(args[0])), ('simd', n)
    if fn == 'vget_low_f32': return perm([(0, 0), (0, 1)], vec(args[0])), S2
    if fn == 'vget_high_f32': return perm([(0, 2), (0, 3)], vec(args[0])), S2
    if fn == 'vcombine_f32': return perm([(0, 0), (0, 1), (1, 0), (1, 1)], vec(args[0]), vec(args[1])), S4
    if fn == 'vextq_f32':
        n = const(args[2]); return perm([((k + n) // 4, (k + n) % 4) for k in range(4)], vec(args[0]), vec(args[1])), S4
    if fn == 'vrev64q_f32': return perm([(0, 1), (0, 0), (0, 3), (0, 2)], vec(args[0])), S4
    tup = {'vzipq_f32': [[(0, 0), (1, 0), (0, 1), (1, 1)], [(0, 2), (1, 2), (0, 3), (1, 3)]],
           'vtrnq_f32': [[(0, 0), (1, 0), (0, 2), (1, 2)], [(0, 1), (1, 1), (0, 3), (1, 3)]],
           'vuzpq_f32': [[(0, 0), (0, 2), (1, 0), (1, 2)], [(0, 1), (0, 3), (1, 1), (1, 3)]]}
    if fn in tup:
        a, b = vec(args[0]), vec(args[1])
        return bi('PTup', *[perm(l, a, b) for l in tup[fn]]), ('simdn', 2, 4)
    if fn == 'vld4q_f32':
        v = ld(16, addr(args[0]))
        return bi('PTup', *[perm([(0, 4 * j + k) for j in range(4)], v) for k in range(4)]), ('simdn', 4, 4)
    if fn == 'vpaddq_f32':
        a, b = vec(args[0]), vec(args[1])
        return p2('OAdd', perm([(0, 0), (0, 2), (1, 0), (1, 2)], a, b), perm([(0, 1), (0, 3), (1, 1), (1, 3)], a, b)), S4
    if fn in ('vpadd_f32', 'vpmin_f32', 'vpmax_f32'):
        a, b = vec(args[0]), vec(args[1])
        o = {'vpadd_f32': 'OAdd', 'vpmin_f32': 'OMinN', 'vpmax_f32': 'OMaxN'}[fn]
        return p2(o, perm([(0, 0), (1, 0)], a, b), perm([(0, 1), (1, 1)], a, b)), S2
    if fn == 'vaddvq_f32':
        # two pairwise additions
        a = vec(args[0])
        s = p2('OAdd', perm([(0, 0), (0, 2)], a), perm([(0, 1), (0, 3)], a))
        return bi('PVlane 0', p2('OAdd', perm([(0, 0)], s), perm([(0, 1)], s))), FLOAT
    if fn in ('vgetq_lane_f32', 'vget_lane_f32', 'wasm_f32x4_extract_lane'): return bi('PVlane %d' % const(args[1]), vec(args[0])), FLOAT
    if fn in ('vminq_f32', 'vmaxq_f32'): return p2('OMinN' if 'min' in fn else 'OMaxN', vec(args[0]), vec(args[1])), S4
    if fn in ('vabsq_f32', 'wasm_f32x4_abs'): return p1('OAbs', vec(args[0])), S4
    if fn in ('vnegq_f32', 'wasm_f32x4_neg'): return p1('ONeg', vec(args[0])), S4
    if fn in ('vfmaq_f32', 'vfmsq_f32'):
        c, a, b = [vec(x) for x in args]
        return bi('PVfma', p1('ONeg', a) if fn[3] == 's' else a, b, c), S4
    if fn in ('vmlaq_f32', 'vmlsq_f32'):
        c, a, b = [vec(x) for x in args]
        return p2('OSub' if fn[3] == 's' else 'OAdd', c, p2('OMul', a, b)), S4
    if fn in ('vmulq_lane_f32', 'vmlaq_lane_f32'):
        k = const(args[-1]); l = perm([(0, k)] * 4, vec(args[-2]))
        pr = p2('OMul', vec(args[-3]), l)
        return (pr if fn == 'vmulq_lane_f32' else p2('OAdd', vec(args[0]), pr)), S4

    # ---- WebAssembly
    if fn == 'wasm_i32x4_shuffle':
        return perm([(const(x) // 4, const(x) % 4) for x in args[2:]], vec(args[0]), vec(args[1])), S4
    if fn == 'wasm_f32x4_pmin': return bi('PVpick CLt', vec(args[1]), vec(args[0])), S4   # b < a ? b : a
    if fn == 'wasm_f32x4_pmax': return 'builtin (PVpick CGt)$(%s, %s)' % (vec(args[1]), vec(args[0])), S4   # a < b ? b : a
    if fn in ('wasm_i32x4_const',): return signs(args), S4
    if fn == 'wasm_i32x4_const_splat': return signs([args[0]] * 4), S4
    if fn in ('wasm_f32x4_const', 'wasm_f32x4_make'): return bi('PVmk', *[flt(a) for a in args]), S4
    if fn == 'wasm_f32x4_replace_lane':
        k = const(args[1])
        return perm([(1, 0) if j == k else (0, j) for j in range(4)], vec(args[0]), bi('PVsplat 1', flt(args[2]))), S4
    return None
