#!/usr/bin/env python3
"""Translates unit tests of the repository to Coq: theories/Replay_*.v (see ReplayText.v).

usage: tools/replay.py /repo rocq/theories
Every statement of a test is translated or the script stops."""
import re, sys

REPO, OUT = sys.argv[1], sys.argv[2]

def unquote(s):
    """A Go string literal."""
    if s[0] == '`': return s[1:-1]
    out, i = '', 1
    while i < len(s) - 1:
        if s[i] == '\\':
            c = s[i + 1]
            if c == 'x': out += chr(int(s[i+2:i+4], 16)); i += 4; continue
            out += {'n': '\n', 't': '\t', '"': '"', '\\': '\\'}[c]; i += 2
        else: out += s[i]; i += 1
    return out

def coqstr(s):
    assert all(32 <= ord(c) < 127 for c in s), s
    return '"%s"' % s.replace('"', '""')

def by(s): return '(B %s)' % coqstr(s)

def args_of(s):
    """Splits at the commas on top level."""
    out, depth, cur, i = [], 0, '', 0
    while i < len(s):
        c = s[i]
        if c == '"':
            j = i + 1
            while s[j] != '"': j += 2 if s[j] == '\\' else 1
            cur += s[i:j+1]; i = j + 1; continue
        if c in '({[': depth += 1
        if c in ')}]': depth -= 1
        if c == ',' and depth == 0: out.append(cur.strip()); cur = ''
        else: cur += c
        i += 1
    if cur.strip(): out.append(cur.strip())
    return out

def statements(body):
    """Statements on top level of a function body: simple ones, and ('if', cond, text)."""
    lines, i, out = body.split('\n'), 0, []
    while i < len(lines):
        l = lines[i].strip(); i += 1
        if not l or l.startswith('//'): continue
        if l.startswith(('if ', 'for ', 'var (')):
            text = [l]; ind = re.match(r'\t*', lines[i-1]).group(0)
            close = ind + (')' if l.startswith('var') else '}')
            while not (lines[i].startswith(close) and not lines[i].rstrip().endswith('{')): text.append(lines[i].strip()); i += 1
            i += 1
            out.append(('\n'.join(text))); continue
        while l.count('(') > l.count(')') or l.endswith(','): l += ' ' + lines[i].strip(); i += 1
        out.append(l)
    return out

class Tr:
    def __init__(self, name, path, header, methods, dot, asserts):
        self.name, self.header, self.methods, self.dot, self.asserts = name, header, methods, dot, asserts
        self.src = open(REPO + '/' + path).read(); self.path = path
        self.consts = {}
        for m in re.finditer(r'^\t(\w+)\s*= (`[^`]*`)', self.src, re.M): self.consts[m.group(1)] = unquote(m.group(2))
    def val(self, a):
        if a == 'nil': return 'VNil'
        if re.match(r'\d+$', a): return '(VUser %s)' % by(a)
        assert a[0] == '"', a
        return '(VUser %s)' % by(unquote(a))
    def arg(self, a):
        m = re.match(r'makeTestDN\(t, (".*")\)$', a)
        if m: return '(dn %s)' % by(unquote(m.group(1)))
        if a[0] == '"': return by(unquote(a))
        if re.match(r'0x[0-9a-fA-F]+$', a): return '%d%%N' % int(a, 16)
        if re.match(r'-?\d+$', a): return a
        raise SystemExit('argument ' + a)
    def call(self, e):
        """A method call as a program."""
        if e == 'NewTree()' or e == '&Node{}' or e == 'NewTreeWithCustomComparison(strings.Compare)': return self.methods['New']
        m = re.match(r'(\w+)\.(\w+)\((.*)\)$', e)
        f, kinds = self.methods[m.group(2)]
        a = args_of(m.group(3)); assert len(a) == len(kinds), e
        conv = {'v': self.val, 'k': self.arg, 'n': lambda x: '%d%%N' % int(x, 0), 'z': lambda x: '(%s)%%Z' % x}
        return f + ' ' + m.group(1) + ''.join(' ' + conv[k](x) for k, x in zip(kinds, a))
    def test(self, fn, body):
        out, panics, last = [], [], None
        E = out.append
        for s in statements(body):
            if s.startswith('var ('):
                for l in s.split('\n')[1:]:
                    m = re.match(r'(\w+)\s+\*\w+$', l)
                    if m: E('%s <- Ret (None : ptr) ;;' % m.group(1))
                    else: assert re.match(r'ok\s+bool$', l), l
                continue
            m = re.match(r'var (\w+) \*\w+$', s)
            if m: E('%s <- Ret (None : ptr) ;;' % m.group(1)); continue
            m = re.match(r'for i := uint(32|64)\(0\); i < 256; i\+\+ \{\nr = r\.(\w+)\((inv(?:32|64)\[i\]<<(?:24|56)|i), (\d+), fmt\.Sprintf\("%02x", (?:inv(?:32|64)\[i\]|i)\)\)$', s)
            if m:
                w, f = m.group(1), self.methods[m.group(2)][0]
                if m.group(3) == 'i': E('r <- each (fun i r => %s r i %s%%Z (VUser (hex 2 i))) (map N.of_nat (seq 0 256)) r ;;' % (f, m.group(4)))
                else: E('r <- each (fun i r => %s r (N.shiftl i %s%%N) %s%%Z (VUser (hex 2 i))) inv%s r ;;' % (f, m.group(3)[-2:], m.group(4), w))
                continue
            m = re.match(r'(\w+) :?= nil$', s)
            if m: E('%s <- Ret (None : ptr) ;;' % m.group(1)); continue
            m = re.match(r'assertPanic\(func\(\) \{ (.*) \}, ".*", t\)$', s)
            if m: panics.append((len(out), self.call(m.group(1)))); continue
            m = re.match(r'if (!?)ok \{', s)
            if m:
                w = re.search(r'(?:s|v) != ("(?:[^"\\]|\\.)*"|\d+)', s)
                if w: assert m.group(1); E('check (ok && val_is v %s) ;;;' % by(num(w.group(1))))
                else: E('check (%sok) ;;;' % ('' if m.group(1) else 'negb ')); assert 'else' not in s
                continue
            m = re.match(r'if (!?)(\w+)\.IsEmpty\(\) \{', s)
            if m: E('e <- %s %s ;; check (%se) ;;;' % (self.methods['IsEmpty'][0], m.group(2), '' if m.group(1) else 'negb ')); continue
            m = re.match(r'if (\w+) == nil \{', s)
            if m: E('check (negb (ptr_eqb %s None)) ;;;' % m.group(1)); continue
            m = re.match(r'(assert\w+)\((.*)\)$', s)
            if m: E(self.asserts(self, m.group(1), args_of(m.group(2)))); continue
            m = re.match(r'(\w+), (\w+) :?= (.*)$', s)
            if m:
                a, b = m.group(1), m.group(2)
                E('x <- %s ;;' % self.call(m.group(3)))
                if a != '_': E('let %s := x.1 in' % a)
                if b != '_': E('let %s := x.2 in' % b)
                continue
            m = re.match(r'ch :?= (.*)$', s)
            if m: E('ch <- %s ;;' % self.call(m.group(1))); continue
            m = re.match(r'(\w+) :?= (.*)$', s)
            if m: E('%s <- %s ;;' % (m.group(1), self.call(m.group(2)))); continue
            m = re.match(r'\w+\.\w+\(.*\)$', s)
            if m: E(self.call(s) + ' ;;;'); continue
            raise SystemExit('statement: ' + s)
        res = ['(** %s %s *)' % (self.path, fn)]
        def emit(nm, ls, end, how):
            res.append('Definition t_%s : prog unit :=\n  %s\n  %s.' % (nm, '\n  '.join(ls), end))
            res.append('Example %s_%s : %s t_%s = true.\nProof. vm_compute. reflexivity. Qed.' % (nm, how, how, nm))
        emit(fn, out, 'Ret tt', 'passes')
        for i, (n, c) in enumerate(panics):
            # from the last creation of the variable on
            var = re.match(r'\S+(?: \S+)* (\w+)', c)
            start = max(j for j in range(n) if re.match(r'\w+ <- (Ret \(None : ptr\)|%s) ;;$' % re.escape(self.methods['New']), out[j]))
            emit('%s_panic%d' % (fn, i), [x for x in out[start:n] if 'check' not in x], 'x <- %s ;; Ret tt' % c, 'panics')
        return '\n'.join(res)
    def run(self, skip=()):
        res = []
        for m in re.finditer(r'^func (Test\w+)\(t \*testing\.T\) \{\n(.*?)^\}\n', self.src, re.M | re.S):
            if m.group(1) in skip: continue
            res.append(self.test(m.group(1), m.group(2)))
        open('%s/Replay_%s.v' % (OUT, self.name), 'w').write(self.header + '\n' + '\n\n'.join(self.used()) + '\n\n' + '\n\n'.join(res) + '\n')
    def used(self):
        return ['Definition %s : bytes := lines [\n  %s]%%string.' % (n, ';\n  '.join(coqstr(l) for l in t.rstrip('\n').split('\n'))) for n, t in self.consts.items()]

def num(s): return unquote(s) if s[0] == '"' else s

def pairs(items):
    out = []
    for x in items:
        m = re.match(r'(".*"): (".*"|\d+)\n$', unquote(x))
        out.append('(%s, %s)' % (by(unquote(m.group(1))), by(num(m.group(2)))))
    return '[%s]' % '; '.join(out)

HEAD = """(** * Made by tools/replay.py from %s. See ReplayText.v. *)
From Verif Require Import %s.
From Coq Require Import String.
Open Scope nat_scope.
Local Notation B := list_byte_of_string.
Local Notation prog := (prog bytes).
"""

def rb_asserts(self, f, a):
    if f == 'assertTree': return 'd <- %s %s ;; check (beq (dot_text %s d) %s) ;;;' % (self.dot[0], a[0], self.dot[1], a[1])
    if f in ('assertEnumerate', 'assertRawEnumerate'): return 'e1 <- %s ;; check (list_is pair_is e1 %s) ;;;' % (self.call(a[0]), pairs(a[3:]))
    raise SystemExit(f)

STR = {'New': 'str_new', 'Insert': ('str_insert 64', 'kv'), 'InplaceInsert': ('str_inplace_insert 64', 'kv'), 'Get': ('str_get 64', 'k'),
    'Enumerate': ('str_enumerate 64', ''), 'Delete': ('str_delete 64', 'k'), 'IsEmpty': ('str_is_empty', '')}
Tr('strtree', 'strtree/strtree_test.go', HEAD % ('strtree/strtree_test.go', 'Prog RbModel DotModel ReplayText'), STR, ('str_dot 200', 'rb_text'), rb_asserts).run()
Tr('strtree8', 'uintX/strtree8/strtree_test.go', HEAD % ('uintX/strtree8/strtree_test.go', 'Prog RbModel DotModel ReplayText') +
   '(** Numbers are given as their decimal digits. *)\n', STR, ('str_dot 200', 'rb_text_number'), rb_asserts).run()
Tr('dltree', 'dltree/dltree_test.go', HEAD % ('dltree/dltree_test.go', 'Prog RbModel DomModel DlModel DotModel ReplayText'),
   {'New': 'dl_new', 'Insert': ('dl_insert 64', 'kv'), 'InplaceInsert': ('dl_inplace_insert 64', 'kv'), 'Get': ('dl_get 64', 'k'),
    'Enumerate': ('dl_enumerate 64', ''), 'Delete': ('dl_delete 64', 'k'), 'IsEmpty': ('dl_is_empty', ''),
    'RawInsert': ('dl_raw_insert 64', 'kv'), 'RawInplaceInsert': ('dl_raw_inplace_insert 64', 'kv'), 'RawGet': ('dl_raw_get 64', 'k'),
    'RawEnumerate': ('dl_raw_enumerate 64', ''), 'RawDelete': ('dl_raw_delete 64', 'k')},
   ('dl_dot 200', 'rb_text'), rb_asserts).run()

def dt_asserts(self, f, a):
    if f == 'assertTree': return 'e1 <- dt_enumerate 200 %s ;; check (list_is pair_is e1 %s) ;;;' % (a[0], pairs(a[3:]))
    if f == 'assertValue':
        return 'check (%s) ;;;' % ('%s && val_is %s %s' % (a[1], a[0], by(num(a[2]))) if a[3] == 'true' else 'negb %s' % a[1])
    raise SystemExit(f)
for d, name in (('domaintree', 'domaintree'), ('uintX/domaintree8', 'domaintree8')):
  Tr(name, d + '/domaintree_test.go', HEAD % (d + '/domaintree_test.go', 'Prog RbModel DomModel DlModel DtModel ReplayText') +
   '(** MakeNameFromString, which must succeed. *)\nDefinition dn (s : bytes) : name := match make_name s with DOk n => n | _ => Name s (B "?") end.\n',
   {'New': 'dt_new', 'Insert': ('dt_insert 200', 'kv'), 'InplaceInsert': ('dt_inplace_insert 200', 'kv'), 'Get': ('dt_get 200', 'k'),
    'Delete': ('dt_delete 200', 'k'), 'DeleteSubdomains': ('dt_delete_subdomains 200', 'k')},
   None, dt_asserts).run()

def num_asserts(w):
    def f(self, g, a):
        dot = lambda r, e: 'd <- n_dot 600 %s ;; check (beq (dot_text (num_text %d) d) %s)' % (r, w // 4, e)
        if g == 'assertTree%d' % w: return dot(a[0], a[1]) + ' ;;;'
        if g == 'assertTree%dDelete' % w:
            if a[2] == '""': return 'check (negb %s) ;;;' % a[1]
            return 'check %s ;;; %s ;;;' % (a[1], dot(a[0], a[2]))
        if g == 'assertTreeMatch':
            m = re.match(r'wrapStr\((.*)\)$', a[2])
            return 'check (%s) ;;;' % ('%s && val_is %s %s' % (a[1], a[0], by(unquote(m.group(1)))) if m else 'negb %s' % a[1])
        if g == 'assertSequence%d' % w:
            items = []
            for x in a[3:]:
                m = re.match(r'0x([0-9a-f]+)/(\d+): (".*")$', unquote(x))
                items.append('(%d%%N, %s%%N, %s)' % (int(m.group(1), 16), m.group(2), by(unquote(m.group(3)))))
            return 'check (list_is node_is %s [%s]) ;;;' % (a[0], '; '.join(items))
        raise SystemExit(g)
    return f
EACH = '''(** The loops of the tests. *)
Fixpoint each (f : N -> ptr -> prog ptr) (l : list N) (r : ptr) : prog ptr :=
  match l with [] => Ret r | i :: l => r <- f i r ;; each f l r end.
'''
for w in (32, 64):
    inv = re.search(r'var inv%d = \[\]uint%d\{(.*?)\}' % (w, w), open(REPO + '/numtree/node%d_test.go' % w).read(), re.S).group(1)
    inv = [int(x, 16) for x in inv.replace(',', ' ').split()]; assert len(inv) == 256
    INV = 'Definition inv%d : list N := [%s]%%N.\n' % (w, '; '.join(map(str, inv)))
    Tr('numtree%d' % w, 'numtree/node%d_test.go' % w, HEAD % ('numtree/node%d_test.go' % w, 'Prog NumModel DotModel ReplayText') +
       'Definition node_is (x : loc * numnode bytes) (e : N * N * bytes) : bool :=\n  N.eqb (nn_key x.2) e.1.1 && N.eqb (nn_bits x.2) e.1.2 && val_is (nn_val x.2) e.2.\n' + EACH + INV,
       {'New': 'Ret None', 'Insert': ('n_insert c%d' % w, 'nzv'), 'InplaceInsert': ('n_inplace_insert c%d' % w, 'nzv'), 'Match': ('n_match c%d' % w, 'nz'),
        'ExactMatch': ('n_exact c%d' % w, 'nz'), 'Enumerate': ('n_enumerate c%d' % w, ''), 'Delete': ('n_delete c%d' % w, 'nz')},
       None, num_asserts(w)).run()

# iptree: the table of TestUpdateDescendants; the other tests by hand with {CIDR} for the networks.
import ipaddress
def byl(b): return '[%s]' % '; '.join('x%02x' % x for x in b)
def cidr(s):
    n = ipaddress.ip_network(s, strict=False)
    return '(Some (%s, %s))' % (byl(n.network_address.packed), byl(n.netmask.packed))
def ip16(s):
    """net.ParseIP gives sixteen bytes."""
    a = ipaddress.ip_address(s)
    return byl(a.packed if a.version == 6 else b'\0' * 10 + b'\xff\xff' + a.packed)
IPHEAD = HEAD % ('iptree/iptree_test.go', 'Prog NumModel IpModel ReplayText') + '''Import Byte.
Open Scope N_scope.
(** iptree_test.go: debugNode32. Indentation, address, prefix length, value. *)
Definition row : Type := nat * bytes * N * value bytes.
Fixpoint dump32 (fuel : nat) (n : ptr) (indent : nat) : prog (list row) :=
  match fuel, n with
  | S fuel, Some _ =>
    nn <- ld_num n ;; c <- n_children n ;;
    a <- dump32 fuel c.1 (S indent) ;; b <- dump32 fuel c.2 (S indent) ;;
    Ret ((indent, unpack32 (nn_key nn), nn_bits nn, nn_val nn) :: a ++ b)
  | _, _ => Ret []
  end.
(** debugNode64: walkSubtree and walk. *)
Fixpoint dumpsub (fuel : nat) (ms : bytes) (bits : N) (n : ptr) (indent : nat) : prog (list row) :=
  match fuel, n with
  | S fuel, Some _ =>
    nn <- ld_num n ;;
    let here := (indent, ip_mask (firstn 8 ms ++ unpack64 (nn_key nn)) (cidr_mask (64 + nn_bits nn) 128), bits + nn_bits nn, nn_val nn) in
    match nn_val nn with
    | VSub s => r <- dumpsub fuel ms bits s (S indent) ;; Ret (here :: r)
    | _ => c <- n_children n ;; a <- dumpsub fuel ms bits c.1 (S indent) ;; b <- dumpsub fuel ms bits c.2 (S indent) ;; Ret (here :: a ++ b)
    end
  | _, _ => Ret []
  end.
Fixpoint dump64 (fuel : nat) (n : ptr) (indent : nat) : prog (list row) :=
  match fuel, n with
  | S fuel, Some _ =>
    nn <- ld_num n ;; c <- n_children n ;;
    match nn_val nn with
    | VNil => a <- dump64 fuel c.1 indent ;; b <- dump64 fuel c.2 indent ;; Ret (a ++ b)
    | v =>
      here <- (match v with
               | VSub s => dumpsub fuel (msip nn) (nn_bits nn) s indent
               | _ => Ret [(indent, msip nn, nn_bits nn, v)]
               end) ;;
      a <- dump64 fuel c.1 (S indent) ;; b <- dump64 fuel c.2 (S indent) ;; Ret (here ++ a ++ b)
    end
  | _, _ => Ret []
  end.
Definition row_is (x : row) (e : nat * bytes * N * option bytes) : bool :=
  let '(i, a, b, v) := x in let '(i', a', b', v') := e in
  Nat.eqb i i' && beq a a' && N.eqb b b' && match v, v' with VNil, None => true | VUser s, Some s' => beq s s' | _, _ => false end.
Definition tree_is (t : ptr) (e4 e6 : list (nat * bytes * N * option bytes)) : prog unit :=
  r <- ld_ip t ;; a <- dump32 200 r.1 0 ;; b <- dump64 200 r.2 0 ;; check (list_is row_is a e4) ;;; check (list_is row_is b e6).
(** The callbacks look the network up in a table and panic if it is not there: here they count the misses. *)
Definition pair_at (x : bytes * bytes * value bytes) (e : bytes * bytes * bytes) : bool := beq x.1.1 e.1.1 && beq x.1.2 e.1.2.
Definition table (l : list (bytes * bytes * bytes)) (misses : nat) (x : bytes * bytes * value bytes) : nat * option (value bytes) :=
  match find (pair_at x) l with Some e => (misses, Some (VUser e.2)) | None => (S misses, None) end.
Fixpoint inserts (t : ptr) (l : list (ipnet * bytes)) : prog unit :=
  match l with [] => Ret tt | (n, v) :: l => ip_inplace_insert_net t n (VUser v) ;;; inserts t l end.
'''
src = open(REPO + '/iptree/iptree_test.go').read()
res = [IPHEAD]
body = re.search(r'^func TestUpdateDescendants.*?^\}\n', src, re.M | re.S).group(0)
def goconcat(s): return ''.join(unquote(x) for x in re.findall(r'"(?:[^"\\]|\\.)*"', s))
def rows(text):
    m = re.match(r'\n==== 32 bit ====\n(.*)\n==== 128 bit ====\n(.*)$', text, re.S); out = []
    for part in m.groups():
        items = []
        for l in part.split('\n'):
            if l in ('', 'nil'): continue
            x = re.match(r'(\t*)(\S+)/(\d+) (?:- )?\((.*)\)$', l)
            v = 'None' if x.group(4) == '<nil>' else 'Some ' + by(unquote(x.group(4)))
            items.append('(%d%%nat, %s, %s, %s)' % (len(x.group(1)), byl(ipaddress.ip_address(x.group(2)).packed), x.group(3), v))
        out.append('[%s]' % ';\n    '.join(items))
    return out
cases = re.split(r'^\t\t\{$', body, flags=re.M)[1:]
for i, c in enumerate(cases):
    acts = re.findall(r'\{"([^"]*)", "([^"]*)"\}', c)
    before = rows(goconcat(re.search(r'\t\t\ttree: (.*?)\n\t\t\ttarget', c, re.S).group(1)))
    after = rows(goconcat(re.search(r'\t\t\tupdatedTree: (.*?)\n\t\t\}', c, re.S).group(1)))
    target = re.search(r'target: "(.*)"', c).group(1)
    tab = re.findall(r'^\t{5}"([^"]*)": *"([^"]*)",$', c, re.M)
    tabc = '; '.join('(%s, %s)' % (cidr(k)[7:-2], by(v)) for k, v in tab)
    res.append('(** iptree/iptree_test.go TestUpdateDescendants, case %d *)\nDefinition t_update%d : prog unit :=\n  r <- ip_new ;;\n  inserts r [%s] ;;;\n  tree_is r %s\n    %s ;;;\n  misses <- ip_update (table [%s]) r %s 0%%nat ;;\n  check (Nat.eqb misses 0) ;;;\n  tree_is r %s\n    %s.\nExample TestUpdateDescendants_%d : passes t_update%d = true.\nProof. vm_compute. reflexivity. Qed.\n' % (
        i + 1, i + 1, ';\n    '.join('(%s, %s)' % (cidr(k), by(v)) for k, v in acts), before[0], before[1], tabc, cidr(target), after[0], after[1], i + 1, i + 1))
assert len(cases) == len(re.findall('updateCallback: func', src))
for inp, out in (('iptree_test.in', 'Replay_iptree.v'), ('iptree8_test.in', 'Replay_iptree8.v')):
    hand = open(sys.path[0] + '/' + inp).read()
    hand = re.sub(r'\{net (\S+)\}', lambda m: cidr(m.group(1)), hand)
    hand = re.sub(r'\{ip (\S+)\}', lambda m: ip16(m.group(1)), hand)
    hand = re.sub(r'0x[0-9a-f]+', lambda m: str(int(m.group(0), 16)), hand)
    head = '\n'.join(res) if inp == 'iptree_test.in' else HEAD % ('uintX/iptree8/iptree_test.go', 'Prog NumModel IpModel UxModel ReplayText') + 'Import Byte.\nOpen Scope N_scope.\n'
    open(OUT + '/' + out, 'w').write(head + hand)
