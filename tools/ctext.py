#!/usr/bin/env python3
"""Reads the C text of libhmac (fallback build, without libcrypto) and writes it as
Coq terms of the types in CText.v.  Nothing is simplified except what is said in
the header of the output: pointer casts, message texts and `static char *function`
are dropped."""
import re, sys

REPO = '/repo/'
DEFINED = set()          # nothing of HAVE_LIBCRYPTO etc. is defined
SPECIAL = 'LIBHMAC_UNFOLLED_LOOPS'
LONG_SMALLER = False     # SIZEOF_LONG < SIZEOF_SIZE_T

TOK = re.compile(r'''
   (?P<ws>[ \t]+)
 | (?P<str>"(?:[^"\\]|\\.)*")
 | (?P<chr>'(?:[^'\\]|\\.)*')
 | (?P<num>0x[0-9a-fA-F]+[uUlL]*|[0-9]+[uUlL]*)
 | (?P<id>[A-Za-z_][A-Za-z0-9_]*)
 | (?P<op><<=|>>=|->|\+\+|--|<<|>>|<=|>=|==|!=|&&|\|\||\+=|-=|\*=|/=|%=|&=|\^=|\|=|[-+*/%&|^~!<>=(){}\[\];,.?:@])
''', re.X)

def tokenize(text, line):
    out, i = [], 0
    while i < len(text):
        m = TOK.match(text, i)
        if not m: raise Exception('token %r line %d' % (text[i:i+20], line))
        i = m.end()
        k = m.lastgroup
        if k != 'ws': out.append((k, m.group(), line))
    return out

def read_file(path):
    text = open(REPO + path).read()
    text = re.sub(r'/\*.*?\*/', lambda m: '\n' * m.group().count('\n'), text, flags=re.S)
    lines, res, i = text.split('\n'), [], 0
    while i < len(lines):
        start, l = i, lines[i]
        while l.endswith('\\'):
            i += 1
            l = l[:-1] + ' ' + lines[i]
        res.append((start + 1, l, i + 1))
        i += 1
    return res

def cond_value(e):
    """value of an #if expression: True, False, 'U' or 'NU'"""
    e = e.strip()
    if e == 'defined( %s )' % SPECIAL: return 'U'
    if e == '!defined( %s )' % SPECIAL: return 'NU'
    if e == '( SIZEOF_LONG < SIZEOF_SIZE_T )': return LONG_SMALLER
    py = re.sub(r'defined\(\s*(\w+)\s*\)', lambda m: str(m.group(1) in DEFINED), e)
    py = py.replace('&&', ' and ').replace('||', ' or ').replace('!', ' not ')
    if not re.fullmatch(r'[\sTruealsndotr()F]*', py): raise Exception('cond ' + e)
    return bool(eval(py))

class Macro:
    def __init__(self, name, params, body, l1, l2, path):
        self.name, self.params, self.body, self.l1, self.l2, self.path = name, params, body, l1, l2, path

def preprocess(path, macros, want_defines=True, headers=False):
    """token list; conditionals on the special name become ('if',..) tokens"""
    out, stack = [], []
    def active(): return all(s[0] for s in stack)
    for l1, l, l2 in read_file(path):
        s = l.strip()
        if s.startswith('#'):
            d = re.match(r'#\s*(\w+)\s*(.*)', s)
            kw, rest = d.group(1), d.group(2)
            if kw in ('if', 'ifdef', 'ifndef'):
                v = cond_value(rest) if active() else False
                if v in ('U', 'NU'):
                    out.append(('cpp', 'if' + v, l1)); stack.append([True, 'S', v])
                else: stack.append([v, v, None])
            elif kw == 'elif':
                top = stack[-1]
                if top[1] == 'S': raise Exception('elif on special')
                if top[1]: top[0] = False
                else:
                    stack.pop(); v = cond_value(rest) if active() else False
                    stack.append([v, v, None])
            elif kw == 'else':
                top = stack[-1]
                if top[1] == 'S': out.append(('cpp', 'else', l1))
                else: top[0] = not top[1]
            elif kw == 'endif':
                top = stack.pop()
                if top[1] == 'S': out.append(('cpp', 'endif', l1))
            elif kw == 'define' and active():
                m = re.match(r'(\w+)\(([^)]*)\)\s*(.*)$', rest)
                if m:
                    macros[m.group(1)] = Macro(m.group(1), [p.strip() for p in m.group(2).split(',')],
                                               tokenize(m.group(3), l1), l1, l2, path)
                else:
                    m = re.match(r'(\w+)\s*(.*)$', rest)
                    if m.group(2): macros[m.group(1)] = Macro(m.group(1), None, tokenize(m.group(2).replace('\t',' '), l1), l1, l2, path)
            continue
        if active() and not headers: out += tokenize(l.replace('\t', ' '), l1)
    return out

INTTYPES = {'uint8_t': ('false', 'R8'), 'uint32_t': ('false', 'R32'), 'uint64_t': ('false', 'R64'),
            'size_t': ('false', 'RSz'), 'int': ('true', 'R32'), 'ssize_t': ('true', 'RSz'),
            'int8_t': ('true', 'R8'), 'system_integer_t': ('true', 'R32'), 'size64_t': ('false', 'R64')}
SIZES = {'uint8_t': 1, 'uint32_t': 4, 'uint64_t': 8}
BUILTIN = {'memory_allocate', 'memory_allocate_structure', 'memory_set', 'memory_copy', 'memory_free', 'libcerror_error_set'}
BIN = [{'||': 'ELogOr'}, {'&&': 'ELogAnd'}, {'|': 'OOr'}, {'^': 'OXor'}, {'&': 'OAnd'}, {'==': 'OEq', '!=': 'ONe'},
       {'<': 'OLt', '>': 'OGt', '<=': 'OLe', '>=': 'OGe'}, {'<<': 'OShl', '>>': 'OShr'}, {'+': 'OAdd', '-': 'OSub'}, {'*': 'OMul', '/': 'ODiv', '%': 'OMod'}]
ASG = {'+=': 'OAdd', '-=': 'OSub', '^=': 'OXor', '|=': 'OOr', '&=': 'OAnd', '<<=': 'OShl', '>>=': 'OShr', '*=': 'OMul', '/=': 'ODiv', '%=': 'OMod'}

class Parser:
    def __init__(self, toks, macros, used, params=(), known=None):
        self.t, self.i, self.macros, self.used, self.params = toks, 0, macros, used, set(params)
        self.brackets = 0                         # inside [ ]
        self.kinds = known or {}                  # variables: 'int*', 'char*' and, for global ones, 'gint', 'gchar*'
    members = None                                # the members of sum_handle_t
    main = False                                  # in main of hmacsum.c
    start = False                                 # up to the options
    evp = False                                   # in a build with libcrypto
    def member_args(self): return ['(EVar "%s")' % m for m in MEMBER_NAMES]
    def peek(self, k=0): return self.t[self.i + k] if self.i + k < len(self.t) else ('eof', '', -1)
    def at(self, v): return self.peek()[1] == v and self.peek()[0] in ('op', 'id', 'cpp')
    def next(self): self.i += 1; return self.t[self.i - 1]
    def expect(self, v):
        if not self.at(v): raise Exception('expected %r got %r line %r' % (v, self.peek()[1], self.peek()[2]))
        return self.next()
    # --- expressions: return (text, level) ; level 'p' primary/postfix, 'u' unary, 'b' binary
    def typename_paren(self):
        """( type * ) cast ahead?"""
        if not self.at('('): return None
        j, words = 1, []
        while self.peek(j)[0] == 'id': words.append(self.peek(j)[1]); j += 1
        stars = 0
        while self.peek(j)[1] == '*': stars += 1; j += 1
        if self.peek(j)[1] != ')' or not words: return None
        words = [w for w in words if w not in ('const', 'unsigned')] or ['int']
        if len(words) != 1: return None
        if stars == 0 and words[0] not in INTTYPES and words[0] != 'system_character_t': return None
        if stars and not words[0].endswith('_t') and words[0] not in ('void', 'char'): return None
        return (words[0], stars, j + 1)
    def primary(self):
        k, v, l = self.next()
        if k == 'num':
            m = re.fullmatch(r'(0x[0-9a-fA-F]+|[0-9]+)([uUlL]*)', v)
            n, suf = int(m.group(1), 0), m.group(2).upper()
            if suf == '': 
                assert n < 2**31
                return '(EInt %d)' % n
            if suf == 'UL': return '(ELong %d)' % n
            raise Exception('suffix ' + v)
        if k == 'op' and v == '(':
            e = self.expr(); self.expect(')'); return e
        if k == 'chr': return '(EInt %d)' % ord({"'\\0'": '\0', "'\\n'": '\n', "'\\r'": '\r'}.get(v, v[1:-1]))
        if v == '_SYSTEM_STRING' and k == 'id' and self.start: self.i -= 1; return '(ECall "_SYSTEM_STRING" [(EText "%s")])' % self.strings()
        if v == '_SYSTEM_STRING' and k == 'id': self.i -= 1; return '(EText "%s")' % self.strings()
        if k == 'id':
            if v == 'NULL': return 'ENull'
            if v == 'SSIZE_MAX': return 'ESsizeMax'
            if self.evp and (v == 'UINT_MAX' or v == 'ULONG_MAX' and LONG_SMALLER): return '(ECast false R32 (EInt (-1)))'
            if v == 'sizeof':
                self.expect('('); t = self.next()[1]; self.expect(')')
                if t in SIZES: return '(ESize %d)' % SIZES[t]
                return '(ESizeof "%s")' % t
            if v in self.params: return v
            if v.startswith('LIBCERROR_') or v.startswith('LIBHMAC_RUNTIME_ERROR_') or v == 'LIBCFILE_OPEN_READ': return '(EName "%s")' % v
            if self.at('('):
                args = self.args(v)
                if v in BUILTIN or v not in self.macros:
                    if v == 'libcerror_error_set': args = args[:3]
                    if v == 'libcnotify_printf': args = []
                    if v == 'hmactools_getopt': args += ['(EVar "%s")' % g for g in GLOBALS['hmactools/hmactools_getopt.c']]
                    if self.members and v == 'memory_allocate_structure': v, args = 'sum_handle_t:allocate', []
                    if self.members and v == 'memory_set': v, args = 'sum_handle_t:clear', args[:2] + self.member_args()
                    if v.startswith('sum_handle_') and v != 'sum_handle_t:allocate' and v != 'sum_handle_t:clear': args += self.member_args()
                    if self.evp and v in ('memory_allocate_structure', 'memory_set'): v = {'memory_set': 'structure:clear'}.get(v, 'structure:allocate')
                    if v == 'libcfile_file_read_buffer': args += ['(EVar "file->reads")', '(EVar "file->offset")', '(EVar "sum_handle->abort")']
                    return '(ECall "%s" [%s])' % (v, '; '.join(args))
                self.used.add(v)
                mac = self.macros[v]
                return '(%s %s)' % (v, ' '.join(args))
            if v in self.macros and self.macros[v].params is None:
                body = self.macros[v].body
                if len(body) == 1: 
                    return Parser(body, self.macros, self.used).expr()
                raise Exception('object macro ' + v)
            if self.main and v == 'hmacsum_abort': return '(ECall "hmacsum_abort" [(EVar "looks"); (EVar "file->reads")])'
            if self.main and v == 'hmacsum_signal_handler': return '(EName "%s")' % v
            if self.main and v in ('EXIT_SUCCESS', 'EXIT_FAILURE'): return '(EInt %d)' % (v == 'EXIT_FAILURE')
            if self.start and v in ('stderr', '_IONBF'): return '(EName "%s")' % v
            if self.kinds.get(v) == 'gint': return '(EOut "%s")' % v
            if self.kinds.get(v) == 'gchar*': return '(EStar "%s")' % v
            return '(EVar "%s")' % v
        if k == 'str':
            out = v[1:-1]
            while self.peek()[0] == 'str' or self.peek()[1].startswith('PRI'):
                k, v, l = self.next(); out += v[1:-1] if k == 'str' else '{%s}' % v
            if not self.members: return '(EName "text")'
            return '(EText "%s")' % out.replace('\\t', '\t').replace('\\n', '\n')
        raise Exception('primary %r line %d' % (v, l))
    def strings(self):
        """adjacent _SYSTEM_STRING( x ): strings, and names of formats in braces"""
        out = ''
        while self.at('_SYSTEM_STRING'):
            self.next(); self.expect('('); k, v, l = self.next(); self.expect(')')
            out += v[1:-1] if k == 'str' else '{%s}' % v
        return out
    def args(self, f):
        self.expect('('); out = []
        if f == 'memory_allocate_structure':
            t = self.next()[1]; self.expect(')'); return ['ESizeof "%s"' % t]
        while not self.at(')'):
            n0 = self.i
            out.append(self.expr())
            if f in self.macros and f not in BUILTIN: self.check_atom(n0, self.i)
            if self.at(','): self.next()
        self.next()
        return out
    def check_atom(self, a, b):
        """macro arguments are substituted as text: only accept an argument that is one postfix
        expression, or &( ... ), so that substitution cannot regroup"""
        toks = [t[1] for t in self.t[a:b]]
        if toks[0] == '&': 
            assert toks[1] == '('; toks = toks[1:]
        depth = 0
        for x in toks:
            if x in '([': depth += 1
            elif x in ')]': depth -= 1
            elif depth == 0 and not re.fullmatch(r'\w+|->', x): raise Exception('macro argument %r' % toks)
    def postfix(self):
        e = self.primary()
        while True:
            if self.at('['):
                self.next(); self.brackets += 1; i = self.expr(); self.brackets -= 1; self.expect(']'); e = '(EIndex %s %s)' % (e, i)
            elif self.at('->'):
                self.next(); f = self.next()[1]
                if self.members and e in ('(EVar "sum_handle")', '(EStar "sum_handle")', '(EStar "hmacsum_sum_handle")'):
                    e = '(%s "sum_handle->%s")' % (self.members[f], f)
                elif self.evp: e = '(ECall "->" [%s; (EName "%s")])' % (e, f)
                else: e = '(EField %s "%s")' % (e, f)
            elif self.at('++') and self.brackets:
                self.next(); assert e.startswith('(EVar '); e = e.replace('(EVar', '(EPost')
            else: return e
    def unary(self):
        if self.at('~'): self.next(); return '(ENot %s)' % self.unary()
        if self.at('-'): 
            self.next(); k, v, l = self.next(); assert k == 'num'; return '(EInt (-%s))' % v
        if self.at('*'):
            self.next(); k, v, l = self.next(); assert k == 'id'
            if self.kinds.get(v) == 'int*': return '(EOut "%s")' % v
            if self.kinds.get(v) == 'char*': return '(EIndex (EVar "%s") (EInt 0))' % v      # *v is v[ 0 ]
            assert self.kinds.get(v) is None
            return '(EStar "%s")' % v
        if self.at('&'):
            self.next()
            if self.main and self.peek()[1] in ('error', 'hmacsum_sum_handle'): return '(EVar "%s")' % self.next()[1]
            if self.peek()[0] == 'id': return '(ERef "%s")' % self.next()[1]
            e = self.unary()
            m = re.fullmatch(r'\((EOut|EStar) ("sum_handle->\w+")\)', e)
            if m: return '(EVar %s)' % m.group(2)
            if e.startswith('(ECall "->" '): return e.replace('"->"', '"&->"', 1)
            assert e.startswith('(EIndex'), e
            return '(EAddr %s)' % e
        t = self.typename_paren()
        if t:
            self.i += t[2]
            e = self.unary()
            if t[1]: return e                     # pointer casts are dropped
            if t[0] == 'system_character_t': return '(EChar %s)' % e
            return '(ECast %s %s %s)' % (INTTYPES[t[0]] + (e,))
        return self.postfix()
    def expr(self, lev=0):
        if lev == len(BIN): return self.unary()
        e = self.expr(lev + 1)
        while self.peek()[0] == 'op' and self.peek()[1] in BIN[lev]:
            o = BIN[lev][self.next()[1]]
            e = ('(%s %s %s)' if lev < 2 else '(EBin %s %s %s)') % (o, e, self.expr(lev + 1))
        return e
    # --- statements
    def simple(self):
        """expression statement or assignment, without the final ;"""
        n0 = self.i
        if self.peek()[0] == 'id' and self.peek(1)[1] == '(' and self.peek()[1] in self.macros and self.peek()[1] not in BUILTIN:
            v = self.next()[1]
            args = self.args(v)
            self.used.add(v)
            return '%s %s' % (v, ' '.join(args))
        e = self.unary()
        if self.at('='):
            self.next(); x = self.expr()
            if e.startswith('(ECall "->" '): return 'SExpr %s; %s])' % (e[:-2].replace('"->"', '"->="', 1), x)
            return None if e in ('(EOut "sum_handle->%s_context_initialized")' % a for a in HASHES) else 'SAssign %s %s' % (e, x)
        m = re.fullmatch(r'\(EVar "(\w+)"\)', e)
        if self.at('++') and m and self.kinds.get(m.group(1)) == 'char*':        # p++ is p = &( p[ 1 ] )
            self.next(); return 'SAssign %s (EAddr (EIndex %s (EInt 1)))' % (e, e)
        if self.at('++'): self.next(); return 'SOp OAdd %s (EInt 1)' % e
        if self.at('--'): self.next(); return 'SOp OSub %s (EInt 1)' % e
        if self.peek()[1] in ASG:
            o = ASG[self.next()[1]]; return 'SOp %s %s %s' % (o, e, self.expr())
        if e.startswith('(ECall'): return 'SExpr %s' % e
        raise Exception('statement %r line %d' % (e, self.peek()[2]))
    def seq(self, stop):
        out = []
        while not stop(): 
            s = self.stmt()
            if s: out.append(s)
        return out
    def block(self):
        if self.at('{'):
            self.next(); b = self.seq(lambda: self.at('}')); self.next(); return b
        return [self.stmt()]
    def stmt(self):
        k, v, l = self.peek()
        if k == 'cpp':
            self.next()
            a = self.seq(lambda: self.peek()[0] == 'cpp' and self.peek()[1] in ('else', 'endif'))
            b = []
            if self.next()[1] == 'else':
                b = self.seq(lambda: self.peek()[0] == 'cpp' and self.peek()[1] == 'endif'); self.next()
            if v == 'ifNU': a, b = b, a
            return ('build', a, b)
        if v == ';': self.next(); return None
        if v == 'if':
            about_error = self.main and [self.peek(j)[1] for j in range(2, 5)] == ['error', '!=', 'NULL']
            self.next(); self.expect('('); c = self.expr(); self.expect(')')
            a = self.block(); b = []
            if about_error: assert a == []; return None
            if self.at('else'): self.next(); b = self.block()
            return ('if', c, a, b)
        if v == 'while' and self.start:           # while( ( x = e ) != c ) is for( x = e; x != c; x = e ), no continue; is in the block
            self.next(); self.expect('('); self.expect('('); y = '(EVar "%s")' % self.next()[1]; self.expect('=')
            e = self.expr(); self.expect(')'); self.expect('!='); c = self.unary(); self.expect(')')
            i = 'SAssign %s %s' % (y, e)
            return ('for', i, '(EBin ONe %s %s)' % (y, c), i, self.block())
        if v == 'while':
            self.next(); self.expect('('); c = self.expr(); self.expect(')')
            return ('while', c, self.block())
        if v == 'for':
            self.next(); self.expect('('); i = 'SSkip' if self.at(';') else self.simple(); self.expect(';'); c = self.expr(); self.expect(';')
            s = self.simple(); self.expect(')')
            return ('for', i, c, s, self.block())
        if v == 'return':
            self.next(); e = self.expr(); self.expect(';'); return ('s', 'SReturn %s' % e)
        if v == 'break': self.next(); self.expect(';'); return ('s', 'SBreak')
        if v == 'switch':
            self.next(); self.expect('('); c = self.expr(); self.expect(')'); self.expect('{')
            cs = []
            otherwise = None
            while not self.at('}'):
                labels, default = [], False
                while self.at('case') or self.at('default'):
                    if self.next()[1] == 'default': self.expect(':'); default = True; continue
                    e = self.unary() if self.start else self.primary(); self.expect(':')
                    labels.append(re.fullmatch(r'\(EInt (\d+)\)', re.sub(r'^\(ECast true R32 (.*)\)$', r'\1', e)).group(1))
                assert labels
                b = self.seq(lambda: self.at('case') or self.at('}'))
                if default: assert not cs and b[-1] == ('s', 'SGoto') and all(x[0] == 's' and x[1].startswith('SExpr') for x in b[:-1]); otherwise = b
                else: cs.append((labels, b))
            self.next()
            if otherwise:                         # it stands first and ends in a goto: reached by its labels only
                tests = ['(EBin OEq %s (EInt %s))' % (c, x) for ls, _ in cs for x in ls]
                cond = tests[-1]
                for x in tests[-2::-1]: cond = '(ELogOr %s %s)' % (x, cond)
                return ('if', cond, [('switch', c, cs)], otherwise)
            return ('switch', c, cs)
        if v == 'goto' and self.main and self.peek(1)[1] == 'on_abort':
            self.next(); self.next(); self.expect(';'); return ('s', 'SBreak')
        if v == 'goto':
            self.next(); x = self.next()[1]; assert x == 'on_error'; self.expect(';'); return ('s', 'SGoto')
        n0 = self.i
        s = self.simple()
        if self.main and (v in ('libcnotify_verbose_set', 'libcnotify_print_error_backtrace', 'libcerror_error_free') or
                          v == 'fprintf' and self.t[n0 + 2][1] == 'stderr' and not self.start): s = None
        if self.at(';'): self.next()
        elif self.peek()[0] == 'eof' and self.params: pass
        elif not (self.t[self.i - 1][1] == ')' and (s.split()[0] in self.macros)): 
            raise Exception('; expected line %d after %s' % (l, s))
        return ('s', s) if s else None

def show(b, ind):
    """a list of statements as a Coq term"""
    if not b: return ' ' * ind + 'SSkip'
    return ' ;-\n'.join(show1(s, ind) for s in b)
def show1(s, ind):
    p = ' ' * ind
    if s[0] == 's': return p + s[1]
    if s[0] == 'if':
        return p + 'SIf %s (\n%s)\n%s(\n%s)' % (s[1], show(s[2], ind + 2), p, show(s[3], ind + 2)) if s[3] else \
               p + 'SIf %s (\n%s) SSkip' % (s[1], show(s[2], ind + 2))
    if s[0] == 'while': return p + 'SWhile %s (\n%s)' % (s[1], show(s[2], ind + 2))
    if s[0] == 'for': return p + 'SFor (%s) %s (%s) (\n%s)' % (s[1], s[2], s[3], show(s[4], ind + 2))
    if s[0] == 'switch':
        return p + 'SSwitch %s [\n%s]' % (s[1], ';\n'.join('%s  ([%s]%%Z,\n%s)' % (p, '; '.join(l), show(b, ind + 4)) for l, b in s[2]))
    if s[0] == 'build': return p + '(if unfolled then\n%s\n%selse\n%s)' % (show(s[1], ind + 2), p, show(s[2], ind + 2))
    raise Exception(s)

def macro_def(name, macros, used):
    m = macros[name]
    p = Parser(m.body, macros, used, m.params)
    # an expression macro starts with ( and has no ; and no assignment
    isexpr = m.body[0][1] == '(' and not any(t[1] in (';', '=') or t[1] in ASG for t in m.body)
    params = '(%s : expr)' % ' '.join(m.params)
    cite = '(* %s:%d%s #define %s *)' % (m.path, m.l1, '-%d' % m.l2 if m.l2 != m.l1 else '', name)
    if isexpr:
        e = p.expr(); assert p.peek()[0] == 'eof'
        return '%s\nDefinition %s %s : expr :=\n  %s.\n' % (cite, name, params, e)
    b = p.seq(lambda: p.peek()[0] == 'eof')
    return '%s\nDefinition %s %s : stmt :=\n%s.\n' % (cite, name, params, show(b, 2))

def emit_macros(names, macros, done, out):
    for n in sorted(names, key=lambda n: (macros[n].path, macros[n].l1)):
        if n in done: continue
        used = set()
        d = macro_def(n, macros, used)
        emit_macros(used, macros, done, out)
        done.add(n); out.append(d)

def split_functions(toks):
    """(kind, ...) items at file level"""
    items, i = [], 0
    toks = [t for t in toks]
    while i < len(toks):
        if toks[i][0] == 'cpp': raise Exception('cpp at file level')
        # find ; or { at depth 0
        j, depth = i, 0
        while not (depth == 0 and toks[j][1] in (';', '{')):
            if toks[j][1] in '([': depth += 1
            if toks[j][1] in ')]': depth -= 1
            j += 1
        if toks[j][1] == ';': items.append(('decl', toks[i:j])); i = j + 1; continue
        head, k, depth = toks[i:j], j, 0
        while True:
            if toks[k][1] == '{': depth += 1
            if toks[k][1] == '}':
                depth -= 1
                if depth == 0: break
            k += 1
        if any(t[1] == '=' for t in head):
            items.append(('table', head, toks[j + 1:k])); i = k + 2
        else:
            items.append(('fun', head, toks[j + 1:k], toks[k][2])); i = k + 1
    return items

def const_value(toks, macros):
    s = []
    for t in toks:
        if t[0] == 'id': s.append('(%s)' % const_value(macros[t[1]].body, macros))
        else: s.append(re.sub(r'[uUlL]+$', '', t[1]) if t[0] == 'num' else t[1])
    return str(eval(''.join(s)))

def fun_def(head, body, lend, path, macros, used, prefix, globs=None, members=None):
    l1 = head[0][2]
    k = next(i for i, t in enumerate(head) if t[1] == '(')
    name = head[k - 1][1]
    rett = head[0][1]; assert k == 2, head
    ps, cur = [], []
    for t in head[k + 1:-1] + [('op', ',', 0)]:
        if t[1] == ',': ps.append(cur); cur = []
        else: cur.append(t[1])
    params, kinds = [], dict(globs or {})
    for p in ps:
        p = [x for x in p if x != 'const']
        if p[-1] == ']': p = p[:-2]; params.append('("%s", CPtr)' % p[-1]); continue
        if p.count('*') == 1 and p[0] in INTTYPES: kinds[p[-1]] = 'int*'
        if p.count('*') == 1 and p[0] == 'system_character_t': kinds[p[-1]] = 'char*'
        if '*' in p: params.append('("%s", CPtr)' % p[-1])
        else: params.append('("%s", CInt %s %s)' % ((p[-1],) + INTTYPES[p[0]]))
    # declarations
    params += ['("%s", CPtr)' % g for g in globs or {}]
    if members: params += ['("%s", CPtr)' % g for g in MEMBER_NAMES]
    P = Parser(body, macros, used, known=kinds)
    P.members = members
    arrays, locs = [], []      # lists of (guard, text)
    guard = None
    while True:
        k, v, l = P.peek()
        if k == 'cpp':
            # a conditional around declarations only
            j = P.i + 1
            if body[j][1] not in INTTYPES and not body[j][1].endswith('_t'): break
            P.next(); guard = v
            if v == 'endif': guard = None
            continue
        if v == 'static':
            while not P.at(';'): P.next()
            P.next(); continue
        w = [v]
        if k != 'id' or not (v in INTTYPES or v.endswith('_t') or v == 'const' or v == 'char'): break
        if P.peek(1)[1] == '(' : break
        n0 = P.i
        while not P.at(';'): P.next()
        toks = [t for t in body[n0:P.i] if t[1] != 'const']; P.next()
        ty, rest = toks[0][1], toks[1:]
        ptr = False
        while rest[0][1] == '*': ptr = True; rest = rest[1:]
        x = rest[0][1]
        if ptr and ty == 'system_character_t': kinds[x] = 'char*'
        if len(rest) > 1 and rest[1][1] == '[':
            n = const_value(rest[2:-1], macros)
            arrays.append((guard, '("%s", %s, %s%%nat)' % (x, INTTYPES[ty][1], n)))
        else:
            assert rest[1][1] == '='
            e = Parser(rest[2:], macros, used).expr()
            locs.append((guard, '("%s", %s, %s)' % (x, 'CPtr' if ptr else '(CInt %s %s)' % INTTYPES[ty], e)))
        if P.peek()[0] == 'cpp' and P.peek()[1] == 'endif' and guard: P.next(); guard = None
    assert all(g is None for g, _ in arrays)
    plain = [t for g, t in locs if g is None]
    gu = [t for g, t in locs if g == 'ifNU']
    assert len(plain) + len(gu) == len(locs)
    assert [g for g, _ in locs] == [None] * len(plain) + ['ifNU'] * len(gu)
    islabel = lambda: P.at('on_error') and P.peek(1)[1] == ':'
    main = P.seq(lambda: P.peek()[0] == 'eof' or islabel())
    tail = []
    if islabel():
        P.next(); P.next(); tail = P.seq(lambda: P.peek()[0] == 'eof')
    lo = '[' + ';\n      '.join(plain) + ']'
    if gu: lo += ' ++\n     (if unfolled then [] else\n      [' + ';\n       '.join(gu) + '])'
    needs_u = 'unfolled' in lo or 'unfolled' in show(main, 0)
    q = ['(* %s:%d-%d %s *)' % (path, l1, lend, name),
         'Definition text_%s %s : fundef := {|' % (name, prefix),
         '  f_name := "%s";' % name,
         '  f_ret := (%s, %s);' % INTTYPES[rett],
         '  f_params := [%s];' % '; '.join(params),
         '  f_arrays := [%s];' % '; '.join(t for _, t in arrays),
         '  f_locals :=\n     %s;' % lo,
         '  f_body :=\n%s;' % show(main, 4),
         '  f_error :=\n%s |}.' % show(tail, 4)]
    return name, '\n'.join(q) + '\n'

def layout(a, macros):
    """the fallback members of struct libhmac_internal_X_context"""
    path = 'libhmac/libhmac_%s_context.h' % a
    toks = preprocess(path, dict(macros))
    s = ' '.join(t[1] for t in toks)
    m = re.search(r'struct libhmac_internal_%s_context \{ (.*?) \} ;' % a, s)
    mem = [x.strip() for x in m.group(1).split(';') if x.strip()]
    l1 = next(l for l, t, _ in read_file(path) if t.strip() == 'struct libhmac_internal_%s_context' % a)
    assert mem[0] == 'uint64_t hash_count' and mem[2] == 'size_t block_offset', mem
    h = re.fullmatch(r'(\w+) hash_values \[ (\d+) \]', mem[1])
    b = re.fullmatch(r'uint8_t block \[ 2 \* (\w+) \]', mem[3])
    n = 2 * int(const_value([('id', b.group(1), 0)], macros))
    assert len(mem) == 4
    l2 = l1
    for l, t, _ in read_file(path):
        if l > l1 and t.strip() == '};': l2 = l; break
    return ('(* %s:%d-%d struct libhmac_internal_%s_context: uint64_t hash_count; %s hash_values[ %s ];\n'
            '   size_t block_offset; uint8_t block[ %d ] *)\n'
            'Definition layout_%s : layout := mk_layout %s %s %d.\n'
            % (path, l1, l2, a, h.group(1), h.group(2), n, a, INTTYPES[h.group(1)][1], h.group(2), n))

def generate(a):
    base = {}
    preprocess('common/byte_stream.h', base, headers=True)
    preprocess('libhmac/libhmac_byte_stream.h', base, headers=True)
    preprocess('include/libhmac/definitions.h.in', base, headers=True)
    preprocess('libhmac/libhmac_definitions.h.in', base, headers=True)
    preprocess('libhmac/libhmac_%s_context.h' % a, base, headers=True)
    out, done, names, tables = [], set(), [], []
    out.append(layout(a, base))
    for path in ('libhmac/libhmac_%s_context.c' % a, 'libhmac/libhmac_%s.c' % a):
        macros = dict(base)
        toks = preprocess(path, macros)
        for it in split_functions(toks):
            if it[0] == 'table':
                h = it[1]; x = h[1][1]; n = int(h[3][1])
                vals = [str(int(re.sub(r'[UL]+$', '', t[1]), 0)) for t in it[2] if t[1] != ',']
                assert len(vals) == n
                rows = [', '] 
                hexs = [re.sub(r'[UL]+$', '', t[1]) for t in it[2] if t[1] != ',']
                body = ';\n   '.join('; '.join(hexs[i:i + 8]) for i in range(0, n, 8))
                out.append('(* %s:%d-%d %s *)\nDefinition tab_%s : list N :=\n  [%s].\n'
                           % (path, h[0][2], it[2][-1][2] + 1, x, x, body))
                tables.append((x, INTTYPES[h[0][1]][1]))
            elif it[0] == 'fun':
                used = set()
                name, d = fun_def(it[1], it[2], it[3], path, macros, used, '(unfolled : bool)')
                emit_macros(used, macros, done, out)
                out.append(d); names.append(name)
    out.append('(* the tables and functions of libhmac/libhmac_%s_context.c and libhmac/libhmac_%s.c, and the structure *)\n'
      'Definition %s_text (unfolled : bool) : program := {|\n  p_tables := [%s];\n  p_functions := [%s];\n  p_types := [("libhmac_internal_%s_context_t", (%s, layout_%s))];\n  p_char := true |}.\n'
      % (a, a, a, ';\n    '.join('("%s", (%s, tab_%s))' % (x, r, x) for x, r in tables),
         ';\n    '.join('text_%s unfolled' % n for n in names), a, a.upper(), a))
    return ('''(* The text of libhmac/libhmac_%s_context.c and libhmac/libhmac_%s.c for a build without
   libcrypto, and of the macros they use, as terms of CText.v.  Written by
   tools/ctext.py from the files in /repo; #if on LIBHMAC_UNFOLLED_LOOPS became a Coq if.
   Left out: casts between pointer types, the declaration of the function name for
   messages, and the message arguments of libcerror_error_set. *)
From Coq Require Import NArith ZArith List String.
From Verif Require Import Machine CText.
Import ListNotations.
Open Scope string_scope.
Open Scope list_scope.
Open Scope N_scope.

''' % (a, a)) + '\n'.join(out)

GLOBALS = {'hmactools/hmactools_getopt.c': {'optind': 'gint', 'optarg': 'gchar*', 'optopt': 'gint', 'next_option': 'gchar*'}}

def generate_tools():
    """digest_hash.c, byte_size_string.c, with and without HAVE_VERBOSE_OUTPUT, and hmactools_getopt.c"""
    out, names = [], []
    for path in ('hmactools/digest_hash.c', 'hmactools/byte_size_string.c', 'hmactools/hmactools_getopt.c'):
        defs = {}
        for verbose in (False, True):
            (DEFINED.add if verbose else DEFINED.discard)('HAVE_VERBOSE_OUTPUT')
            macros = {}
            if 'byte_size' in path:
                for l1, l, l2 in read_file('hmactools/byte_size_string.h'):
                    m = re.match(r'\s*(BYTE_SIZE_STRING_UNIT_\w+)\s*=\s*(\d+)', l)
                    if m: macros[m.group(1)] = Macro(m.group(1), None, [('num', m.group(2), l1)], l1, l2, '')
            globs = GLOBALS.get(path)
            for it in split_functions(preprocess(path, macros)):
                if it[0] == 'decl':
                    assert globs and it[1][-1][1] in ('0', '1', 'NULL') and it[1][-3][1] in globs
                    continue
                used = set()
                name, d = fun_def(it[1], it[2], it[3], path, macros, used, '', globs)
                assert not used
                defs.setdefault(name, []).append(d)
        DEFINED.discard('HAVE_VERBOSE_OUTPUT')
        for name, (quiet, loud) in defs.items():
            if quiet == loud: out.append(quiet); names.append('text_' + name)
            else:
                out.append(quiet.replace('Definition text_%s ' % name, 'Definition text_%s_quiet ' % name))
                out.append(loud.replace('Definition text_%s ' % name, 'Definition text_%s_verbose ' % name))
                names.append('(if verbose then text_%s_verbose else text_%s_quiet)' % (name, name))
    out.append('(* the functions of these files; is char signed, and was HAVE_VERBOSE_OUTPUT defined *)\n'
      'Definition tools_text (signed verbose : bool) : program := {|\n  p_tables := [];\n  p_functions := [%s];\n'
      '  p_types := [];\n  p_char := signed |}.\n' % ';\n    '.join(names))
    return ('''(* The text of hmactools/digest_hash.c, hmactools/byte_size_string.c and hmactools/hmactools_getopt.c
   for a build with narrow characters, as terms of CText.v.  Written by tools/ctext.py from the files in
   /repo; a function that contains #if on HAVE_VERBOSE_OUTPUT is there twice.
   Left out: the declaration of the function name for messages, the message arguments of
   libcerror_error_set and the arguments of libcnotify_printf.  Rewritten: *p as p[ 0 ] and p++ as
   p = &( p[ 1 ] ) for pointers to characters; the global variables of hmactools_getopt.c are further
   parameters that hold their addresses.  In a format the name of a macro stands in braces. *)
From Coq Require Import NArith ZArith List String.
From Verif Require Import Machine CText.
Import ListNotations.
Open Scope string_scope.
Open Scope list_scope.
Open Scope N_scope.

''') + '\n'.join(out)

HASHES = ('md5', 'sha1', 'sha224', 'sha256', 'sha512')
MEMBER_NAMES = (['sum_handle->input_handle'] +
  ['sum_handle->' + n for a in HASHES for n in ('calculate_' + a, a + '_context', 'calculated_%s_hash_string' % a)] +
  ['sum_handle->process_buffer_size', 'sum_handle->abort', 'file->reads', 'file->offset'])

def generate_sum():
    """sum_handle.c"""
    toks = preprocess('hmactools/sum_handle.h', {})
    m = re.search(r'struct sum_handle \{ (.*?) \} ;', ' '.join(t[1] for t in toks))
    members = {}
    for x in m.group(1).split(';'):
        w = x.split()
        if w: members[w[-1]] = 'EStar' if '*' in w else 'EOut'
    assert sorted(MEMBER_NAMES[:-2] + ['sum_handle->%s_context_initialized' % a for a in HASHES]) == sorted('sum_handle->' + x for x in members)
    macros, out, names = {}, [], []
    preprocess('include/libhmac/definitions.h.in', macros, headers=True)
    path = 'hmactools/sum_handle.c'
    for it in split_functions(preprocess(path, macros)):
        assert it[0] == 'fun'
        used = set()
        name, d = fun_def(it[1], it[2], it[3], path, macros, used, '', members=members)
        assert not used
        out.append(d); names.append('text_' + name)
    out.append('(* the functions of this file; is char signed *)\n'
      'Definition sum_text (signed : bool) : program := {|\n  p_tables := [];\n  p_functions := [%s];\n'
      '  p_types := [];\n  p_char := signed |}.\n' % ';\n    '.join(names))
    return ('''(* The text of hmactools/sum_handle.c for a build with narrow characters, as terms of CText.v.
   Written by tools/ctext.py from the files in /repo.  Left out: the declaration of the function name for
   messages, the message arguments of libcerror_error_set, casts between pointer types and the
   assignments to the members X_context_initialized, which nothing reads.
   Rewritten: the members of the structure behind sum_handle, and the number of reads and the offset of the
   file behind input_handle, are further parameters that hold their addresses; calls pass them on, and to
   libcfile_file_read_buffer with them the address of abort, which a signal may set at that moment.
   memory_allocate_structure( sum_handle_t ) and memory_set( *sum_handle, 0, sizeof( sum_handle_t ) ) are
   calls of sum_handle_t:allocate and sum_handle_t:clear.  In a format the name of a macro stands in braces. *)
From Coq Require Import NArith ZArith List String.
From Verif Require Import Machine CText.
Import ListNotations.
Open Scope string_scope.
Open Scope list_scope.
Open Scope N_scope.

''') + '\n'.join(out)

def generate_main():
    """main of hmacsum.c from behind the options"""
    path = 'hmactools/hmacsum.c'
    it = next(x for x in split_functions(preprocess(path, {})) if x[0] == 'fun' and x[1][1][1] == 'main')
    body = it[2]
    i = [j for j, t in enumerate(body) if t[1] == 'libcnotify_verbose_set'][1]
    P = Parser(body[i:], {}, set(), known={'hmacsum_sum_handle': 'gchar*'})
    P.main, P.members = True, {'process_buffer_size': 'EOut'}
    label = lambda x: lambda: P.peek()[0] == 'eof' or P.at(x) and P.peek(1)[1] == ':'
    first = P.seq(label('on_abort')); P.next(); P.next()
    second = P.seq(label('on_error')); P.next(); P.next()
    third = P.seq(lambda: P.peek()[0] == 'eof')
    assert not any(x[0] in ('while', 'for', 'switch') for x in first)      # so that break leaves the switch below
    params = ['option_process_buffer_size', 'option_digest_types', 'source', 'program', 'stdout', 'error', 'hmacsum_sum_handle', 'looks'] + MEMBER_NAMES
    q = ['(* %s:%d-%d main, from behind the options *)' % (path, body[i][2], it[3]),
         'Definition text_main : fundef := {|',
         '  f_name := "main";',
         '  f_ret := (true, R32);',
         '  f_params := [%s];' % '; '.join('("%s", CPtr)' % x for x in params),
         '  f_arrays := [];',
         '  f_locals :=\n     [("result", (CInt true R32), (EInt 0))];',
         '  f_body :=\n    SSwitch (EInt 0) [\n      ([0]%%Z,\n%s)] ;-\n%s;' % (show(first, 8), show(second, 4)),
         '  f_error :=\n%s |}.\n' % show(third, 4),
         '(* this function; is char signed *)',
         'Definition main_text (signed : bool) : program := {|\n  p_tables := [];\n  p_functions := [text_main];\n  p_types := [];\n  p_char := signed |}.']
    return ('''(* The text of main of hmactools/hmacsum.c from behind the reading of the options, for a build with narrow
   characters, as a term of CText.v.  Written by tools/ctext.py from the files in /repo.
   Left out: what is printed on stderr, libcnotify_verbose_set, and printing and freeing the error object.
   Rewritten: the options, source, program, stdout and the global variable hmacsum_sum_handle are parameters, the last two
   and error hold addresses; so do the members of the structure (TextSum.v).  Reading the global variable hmacsum_abort,
   which a signal sets, is a call that is given the number of earlier looks at it in main and the number of reads.
   goto on_abort; is the break; of a switch around what stands before that label. *)
From Coq Require Import NArith ZArith List String.
From Verif Require Import Machine CText.
Import ListNotations.
Open Scope string_scope.
Open Scope list_scope.
Open Scope N_scope.

''') + '\n'.join(q) + '\n'

def generate_start():
    """main of hmacsum.c up to the options"""
    path = 'hmactools/hmacsum.c'
    it = next(x for x in split_functions(preprocess(path, {})) if x[0] == 'fun' and x[1][1][1] == 'main')
    body = it[2]
    i = [j for j, t in enumerate(body) if t[1] == 'libcnotify_verbose_set'][1]
    j = next(j for j, t in enumerate(body) if t[1] == 'libcnotify_stream_set')
    locs = []
    for d in ' '.join(t[1] for t in body[:j]).split(';')[:-1]:
        m = re.fullmatch(r'(\w+) (\*? ?)(\w+) = (.*)', d.strip())
        ty, star, x, e = m.groups()
        if x == 'error': continue
        e = {'NULL': 'ENull', '0': '(EInt 0)', '_SYSTEM_STRING ( "hmacsum" )': '(EText "hmacsum")'}[e]
        locs.append('("%s", %s, %s)' % (x, 'CPtr' if star.strip() else '(CInt %s %s)' % INTTYPES[ty], e))
    k = next(k for k in range(j, i) if body[k][1] == 'if')
    assert [t[1] for t in body[j:k] if t[0] == 'id'] == ['libcnotify_stream_set', 'stderr', 'NULL', 'libcnotify_verbose_set']
    globs = GLOBALS['hmactools/hmactools_getopt.c']
    kinds = dict(globs); kinds['hmacsum_sum_handle'] = 'gchar*'
    P = Parser(body[k:i], {}, set(), known=kinds)
    P.main = P.start = True; P.members = {}
    first = P.seq(lambda: P.peek()[0] == 'eof')
    Q = Parser(body[next(n for n, t in enumerate(body) if t[1] == 'on_error' and body[n + 1][1] == ':') + 2:], {}, set(), known=kinds)
    Q.main, Q.members = True, {}
    last = Q.seq(lambda: Q.peek()[0] == 'eof')
    behind = ['option_process_buffer_size', 'option_digest_types', 'source', 'program', 'stdout', 'error', 'hmacsum_sum_handle', 'looks'] + MEMBER_NAMES
    params = ['argv'] + list(globs) + behind[4:]
    first.append(('s', 'SReturn (ECall "main_behind" [%s])' % '; '.join('(EVar "%s")' % x for x in behind)))
    q = ['(* %s:%d-%d and %d-%d main, up to the options *)' % (path, it[1][0][2], body[i][2] - 1, Q.t[0][2] - 1, it[3]),
         'Definition text_main_start : fundef := {|',
         '  f_name := "main";',
         '  f_ret := (true, R32);',
         '  f_params := [("argc", CInt true R32); %s];' % '; '.join('("%s", CPtr)' % x for x in params),
         '  f_arrays := [];',
         '  f_locals :=\n     [%s];' % ';\n      '.join(locs),
         '  f_body :=\n%s;' % show(first, 4),
         '  f_error :=\n%s |}.\n' % show(last, 4)]
    return ('''(* The text of main of hmactools/hmacsum.c up to the options, for a build with narrow characters, as a term
   of CText.v.  Written by tools/ctext.py from the files in /repo.
   Left out: libcnotify_stream_set, libcnotify_verbose_set, the texts of messages, and printing and freeing the error object.
   Rewritten: the global variables of hmactools_getopt.c, stdout, error, hmacsum_sum_handle and the members of the structure are
   parameters that hold addresses (TextMain.v).  What stands behind the options is the function of TextMain.v, called as main_behind with
   the variables.  while( ( option = e ) != -1 ) is for( option = e; option != -1; option = e ).  The part of the switch
   with default, which stands first and ends in a goto, is the other side of an if that asks for the labels of the rest. *)
From Coq Require Import NArith ZArith List String.
From Verif Require Import Machine CText.
Import ListNotations.
Open Scope string_scope.
Open Scope list_scope.
Open Scope N_scope.

''') + '\n'.join(q)

BUILDS = [  # the constructors of variant in Evp.v, and whether there is EVP_DigestInit_ex2
  ('legacy', {'HAVE_OPENSSL_MD5_H', 'HAVE_OPENSSL_SHA_H', 'MD5_DIGEST_LENGTH', 'SHA_DIGEST_LENGTH', 'SHA224_DIGEST_LENGTH', 'SHA256_DIGEST_LENGTH',
              'SHA512_DIGEST_LENGTH'}, False),
  ('legacy_long', None, True),
  ('inside', {'HAVE_OPENSSL_EVP_H', 'HAVE_EVP_MD_CTX_INIT', 'HAVE_EVP_MD_CTX_CLEANUP'}, False),
  ('inside_ex2', {'HAVE_OPENSSL_EVP_H', 'HAVE_EVP_MD_CTX_INIT', 'HAVE_EVP_MD_CTX_CLEANUP', 'HAVE_EVP_DIGESTINIT_EX2'}, False),
  ('outside', {'HAVE_OPENSSL_EVP_H'}, False),
  ('outside_ex2', {'HAVE_OPENSSL_EVP_H', 'HAVE_EVP_DIGESTINIT_EX2'}, False)]

def generate_evp():
    """the five files libhmac_X_context.c in the builds with libcrypto"""
    global LONG_SMALLER
    out, programs, last = [], {}, None
    for a in HASHES:
        path, seen = 'libhmac/libhmac_%s_context.c' % a, {}
        for build, names, long in BUILDS:
            names = last = names or last
            DEFINED.clear(); DEFINED.update(names)
            DEFINED.update(['HAVE_LIBCRYPTO'] + ['HAVE_EVP_' + h.upper() for h in HASHES] + ['LIBHMAC_HAVE_%s_SUPPORT' % h.upper() for h in HASHES])
            LONG_SMALLER, Parser.evp, macros = long, True, {}
            preprocess('include/libhmac/definitions.h.in', macros, headers=True)
            preprocess('libhmac/libhmac_definitions.h.in', macros, headers=True)
            funs = []
            for it in split_functions(preprocess(path, macros)):
                if it[0] == 'decl': raise Exception(it)
                body, i = [], 0
                while i < len(it[2]):             # unsigned int, unsigned long, unsigned char
                    t = it[2][i]
                    if t[1] == 'unsigned':
                        i += 1; t = (t[0], {'int': 'uint32_t', 'long': 'uint32_t' if long else 'size_t', 'char': 'uint8_t'}[it[2][i][1]], t[2])
                    if t[1] == 'EVP_MD': t = (t[0], 'EVP_MD_t', t[2])
                    body.append(t); i += 1
                used = set()
                name, d = fun_def(it[1], body, it[3], path, macros, used, '')
                assert not used
                if d in seen: funs.append(seen[d]); continue
                seen[d] = 'text_%s_%s' % (name, build)
                out.append(d.replace('Definition text_%s  :' % name, 'Definition text_%s_%s :' % (name, build)).replace(' %s *)' % name, ' %s, %s *)' % (name, build), 1))
                funs.append(seen[d])
            assert len(funs) == 4, funs
            programs[a, build] = funs
    DEFINED.clear(); LONG_SMALLER, Parser.evp = False, False
    def cases(build): return '\n'.join('      | %s => [%s]' % (a.upper(), '; '.join(programs[a, build])) for a in HASHES)
    out.append('(* the functions of libhmac_X_context.c in these builds; is there EVP_DigestInit_ex2 *)\n'
      'Definition evp_functions (v : variant) (ex2 : bool) (a : algid) : list fundef :=\n  match v, ex2 with\n' +
      '\n'.join('  | %s =>\n      match a with\n%s\n      end' % (c, cases(b)) for c, b in
                (('Legacy false, _', 'legacy'), ('Legacy true, _', 'legacy_long'), ('Inside, false', 'inside'), ('Inside, true', 'inside_ex2'),
                 ('Outside, false', 'outside'), ('Outside, true', 'outside_ex2'))) + '\n  end.\n')
    return ('''(* The text of the five files libhmac/libhmac_X_context.c in the builds with libcrypto, as terms of CText.v.  Written by
   tools/ctext.py from the files in /repo.  The builds are those of variant in Evp.v: legacy and legacy_long (where long is
   smaller than size_t), inside and outside, the last two with EVP_DigestInit_ex or _ex2.  A function whose text is the same as in an
   earlier build is there once.
   Left out: casts between pointer types, the declaration of the function name for messages, and the message arguments of
   libcerror_error_set.  Rewritten: p->m, &( p->m ) and p->m = e; for the members of these builds are calls of ->, &-> and ->=;
   allocating and clearing the structure are calls of structure:allocate and structure:clear; UINT_MAX, and ULONG_MAX where
   long has 32 bits, is ( uint32_t ) -1. *)
From Coq Require Import NArith ZArith List String.
From Verif Require Import Machine Evp CText.
Import ListNotations.
Open Scope string_scope.
Open Scope list_scope.
Open Scope N_scope.

''') + '\n'.join(out)

if __name__ == '__main__':
    dest = sys.argv[1]
    open('%s/TextEvp.v' % dest, 'w').write(generate_evp())
    open('%s/TextStart.v' % dest, 'w').write(generate_start())
    open('%s/TextMain.v' % dest, 'w').write(generate_main())
    open('%s/TextSum.v' % dest, 'w').write(generate_sum())
    open('%s/TextTools.v' % dest, 'w').write(generate_tools())
    for a in ('md5', 'sha1', 'sha224', 'sha256', 'sha512'):
        open('%s/Text%s.v' % (dest, a.capitalize()), 'w').write(generate(a))
