#!/usr/bin/env python3
"""Turns the literals of the unit tests of /repo into Coq definitions.

Writes rocq/theories/Tests/Vectors.v (the constants of src/test_vectors) and
rocq/theories/Tests/Parse.v, Verify.v, Decrypt.v (literals of the tests in src/jwe, src/jws).
The generated files are committed; the build does not need /repo."""
import json, os, re, sys

SRC = '/repo/src/'
OUT = os.path.join(os.path.dirname(os.path.abspath(__file__)), '..', 'rocq', 'theories', 'Tests')

# ---------------------------------------------------------------- lexer
TOK = re.compile(r'''
  (?P<ws>\s+|//[^\n]*|/\*.*?\*/)
 |(?P<raw>r\#"(?P<rawbody>.*?)"\#)
 |(?P<str>b?"(?P<strbody>(?:[^"\\]|\\.)*)")
 |(?P<life>'[a-z_]+\b(?!'))
 |(?P<num>\d[\d_]*)
 |(?P<id>[A-Za-z_][A-Za-z0-9_]*!?)
 |(?P<op>::|\.\.|->|=>|==|[-{}()\[\]<>,;:.&*=|#+?!$@])
''', re.X | re.S)

def unescape(s):
    s = re.sub(r'\\\n\s*', '', s)
    return re.sub(r'\\(.)', lambda m: {'n': '\n', 't': '\t', '\\': '\\', '"': '"'}[m.group(1)], s)

def lex(text):
    out, i = [], 0
    while i < len(text):
        m = TOK.match(text, i)
        if not m:
            raise SyntaxError(text[i:i + 60])
        i = m.end()
        if m.group('ws'):
            continue
        if m.group('raw'):
            out.append(('str', m.group('rawbody')))
        elif m.group('str'):
            out.append(('str', unescape(m.group('strbody'))))
        elif m.group('num'):
            out.append(('num', int(m.group('num').replace('_', ''))))
        elif m.group('id'):
            out.append(('id', m.group('id')))
        elif m.group('life'):
            out.append(('id', m.group('life')))
        else:
            out.append(('op', m.group('op')))
    out.append(('end', None))
    return out

class P:
    def __init__(self, toks, i=0):
        self.t, self.i = toks, i
    def peek(self, k=0):
        return self.t[self.i + k]
    def at(self, op):
        return self.t[self.i] == ('op', op)
    def eat(self, op):
        if self.at(op):
            self.i += 1
            return True
        return False
    def need(self, op):
        if not self.eat(op):
            raise SyntaxError('expected %s, got %r (after %r)' % (op, self.t[self.i], self.t[max(0, self.i - 8):self.i]))
    def ident(self):
        k, v = self.t[self.i]
        if k != 'id':
            raise SyntaxError('ident expected: %r' % (self.t[self.i],))
        self.i += 1
        return v
    def generics(self):
        """skips <...> and returns the identifiers in it"""
        self.need('<')
        depth, ids = 1, []
        while depth:
            k, v = self.t[self.i]
            self.i += 1
            if (k, v) == ('op', '<'): depth += 1
            elif (k, v) == ('op', '>'): depth -= 1
            elif k == 'id': ids.append(v)
        return ids
    def args(self, close):
        out = []
        while not self.at(close):
            out.append(self.expr())
            if not self.eat(','):
                break
        self.need(close)
        return out
    def json(self):
        if self.eat('{'):
            d = {}
            while not self.at('}'):
                k = self.peek()[1]; self.i += 1
                self.need(':')
                d[k] = self.json()
                if not self.eat(','): break
            self.need('}')
            return ('jobj', d)
        if self.eat('['):
            l = []
            while not self.at(']'):
                l.append(self.json())
                if not self.eat(','): break
            self.need(']')
            return ('jarr', l)
        k, v = self.peek()
        if k == 'str': self.i += 1; return ('jstr', v)
        if k == 'num': self.i += 1; return ('jnum', v)
        if (k, v) == ('id', 'true'): self.i += 1; return ('jbool', True)
        if (k, v) == ('id', 'false'): self.i += 1; return ('jbool', False)
        if (k, v) == ('id', 'null'): self.i += 1; return ('jnull',)
        return ('jexpr', self.expr())
    def expr(self):
        if self.eat('&') or self.eat('*'):
            return self.expr()
        k, v = self.peek()
        if k == 'id' and v == 'mut':
            self.i += 1
            return self.expr()
        if k == 'str':
            self.i += 1; e = ('str', v)
        elif k == 'num':
            self.i += 1; e = ('num', v)
        elif self.eat('('):
            l = self.args(')')
            e = l[0] if len(l) == 1 else ('tuple', l)
        elif self.eat('['):
            e = ('list', self.args(']'))
        elif k == 'id':
            if v == 'vec!':
                self.i += 1; self.need('['); e = ('list', self.args(']'))
            elif v == 'json!':
                self.i += 1; self.need('('); e = ('json', self.json()); self.need(')')
            elif v == 'format!':
                self.i += 1; self.need('('); e = ('format', self.args(')'))
            else:
                path, gen = [self.ident()], []
                while self.at('::'):
                    self.i += 1
                    if self.at('<'):
                        gen = self.generics()
                    else:
                        path.append(self.ident())
                if self.at('{') and path[-1][0].isupper():
                    self.i += 1
                    f, base = {}, None
                    while not self.at('}'):
                        if self.eat('..'):
                            base = self.expr()
                        else:
                            n = self.ident()
                            f[n] = self.expr() if self.eat(':') else ('path', [n])
                        if not self.eat(','): break
                    self.need('}')
                    e = ('struct', path, f, base)
                elif self.at('('):
                    self.i += 1
                    e = ('call', path, gen, self.args(')'))
                else:
                    e = ('path', path)
        else:
            raise SyntaxError('expr: %r' % (self.t[self.i:self.i + 6],))
        while True:
            if self.at('.'):
                self.i += 1
                n = self.ident()
                if self.at('::'):
                    self.i += 1; self.generics()
                if self.eat('('):
                    e = ('method', e, n, self.args(')'))
                elif n != 'await':
                    e = ('field', e, n)
            elif self.eat('?'):
                pass
            else:
                return e

# ---------------------------------------------------------------- Coq output
def cstr(s):
    return '(B "%s")' % s.replace('"', '""')
def cjson(j):
    k = j[0]
    if k == 'jobj':
        # serde_json's Map is a BTreeMap
        items = sorted(j[1].items(), key=lambda kv: kv[0].encode())
        return '(VObj [%s])' % '; '.join('(%s, %s)' % (cstr(a), cjson(b)) for a, b in items)
    if k == 'jarr': return '(VArr [%s])' % '; '.join(map(cjson, j[1]))
    if k == 'jstr': return '(VStr %s)' % cstr(j[1])
    if k == 'jnum': return '(VNum (PosInt %d))' % j[1]
    if k == 'jbool': return '(VBool %s)' % ('true' if j[1] else 'false')
    if k == 'jnull': return 'VNull'
    return '(VStr %s)' % coq(j[1])

STRUCT = {
  'VerificationMethod': ('mkVM', ['id', 'type_', 'controller', 'verification_material']),
  'DIDDoc': ('mkDoc', ['id', 'key_agreement', 'authentication', 'verification_method', 'service']),
  'DIDCommMessagingService': ('mkMS', ['uri', 'accept', 'routing_keys']),
  'Service': ('mkService', ['id', 'service_endpoint']),
  'Secret': ('mkSecret', ['id', 'type_', 'secret_material']),
  'JWE': ('mkJwe', ['protected', 'recipients', 'iv', 'ciphertext', 'tag']),
  'ParsedJWE': ('mkPJ', ['jwe', 'protected', 'apu', 'apv']),
  'JWS': ('mkJws', ['signatures', 'payload']),
  'ParsedCompactJWS': ('mkPC', ['header', 'parsed_header', 'payload', 'signature']),
  'CompactHeader': ('mkCH', ['typ', 'alg', 'kid']),
}
METHODS = {  # builder methods
  'Message': dict(to='mb_to', to_many='mb_to_many', thid='mb_thid', pthid='mb_pthid', header='mb_header',
                  created_time='mb_created', expires_time='mb_expires', from_prior='mb_from_prior',
                  attachment='mb_attachment', attachments='mb_attachments', **{'from': 'mb_from'}),
  'FromPrior': dict(aud='fpb_aud', exp='fpb_exp', nbf='fpb_nbf', iat='fpb_iat', jti='fpb_jti'),
  'Attachment': dict(id='ab_id', description='ab_description', filename='ab_filename', media_type='ab_media_type',
                     format='ab_format', lastmod_time='ab_lastmod', byte_count='ab_count', jws='ab_jws'),
}
IDS = {'VerificationMethod': 'vm_id', 'Secret': 'sec_id', 'DIDDoc': 'doc_id', 'Service': 'svc_id'}
TYPES = {}     # constant -> Rust type
NOOP = {'into', 'to_owned', 'to_string', 'clone', 'finalize', 'as_str', 'unwrap', 'into_iter', 'collect', 'to_vec', 'as_bytes'}

def kind_of(e):
    if e[0] == 'call':
        return e[1][0] if e[1][0] in METHODS else {'_message': 'Message'}.get(e[1][0])
    if e[0] == 'method': return kind_of(e[1])
    if e[0] == 'path': return TYPES.get(e[1][-1])
    return None

def coq(e):
    k = e[0]
    if k == 'str': return cstr(e[1])
    if k == 'num': return '%d' % e[1]
    if k == 'list':
        if e[1] and all(x[0] == 'num' for x in e[1]):
            return '(bs [%s])' % '; '.join(str(x[1]) for x in e[1])
        return '[%s]' % '; '.join(map(coq, e[1]))
    if k == 'tuple': return '(%s)' % ', '.join(map(coq, e[1]))
    if k == 'json': return cjson(e[1])
    if k == 'path':
        p = e[1]
        if p == ['None']: return 'None'
        if p[-1] in ('true', 'false'): return p[-1]
        if len(p) == 1: return p[0]
        if p[0] in ('VerificationMethodType', 'SecretType'): return 'OtherType' if p[1] == 'Other' else p[1]
        if p[-2] in ('Algorithm', 'EncAlgorithm'): return p[-1]
        raise KeyError(p)
    if k == 'field':
        if e[2] == 'id': return '(%s %s)' % (IDS[kind_of(e[1])], coq(e[1]))
        raise KeyError(e)
    if k == 'struct':
        path, f, _ = e[1], e[2], e[3]
        n = path[-1]
        if path[0] in ('VerificationMaterial', 'SecretMaterial'):
            (v,) = f.values()
            return '(%s %s)' % ({'JWK': 'MJwk', 'Multibase': 'MMultibase', 'Base58': 'MBase58'}[n], coq(v))
        if path[0] == 'ServiceKind':
            return '(%s %s)' % ({'DIDCommMessaging': 'DIDCommMessaging', 'Other': 'OtherService'}[n], coq(f['value']))
        if n == 'Recipient': return '(mkRc %s %s)' % (coq(f['header'][2]['kid']), coq(f['encrypted_key']))
        if n == 'Signature': return '(mkSig %s %s %s)' % (coq(f['header'][2]['kid']), coq(f['protected']), coq(f['signature']))
        if n == 'ProtectedHeader':
            if 'enc' in f:
                return '(mkPH %s)' % ' '.join(coq(f[x]) for x in ['typ', 'alg', 'enc', 'skid', 'apu', 'apv', 'epk'])
            return '(mkJH %s %s)' % (coq(f['typ']), coq(f['alg']))
        if n == 'ParsedJWS': return '(%s, %s)' % (coq(f['jws']), coq(f['protected']))
        c, fields = STRUCT[n]
        assert sorted(fields) == sorted(f), (n, f.keys())
        return '(%s %s)' % (c, ' '.join(coq(f[x]) for x in fields))
    if k == 'call':
        p, a = e[1], e[3]
        if p == ['Some']: return '(Some %s)' % coq(a[0])
        if p[0] == 'Cow' or p == ['String', 'from']: return coq(a[0])
        if p == ['_message']: return '_message'
        if p == ['Message', 'build']: return '(mb_new %s)' % ' '.join(map(coq, a))
        if p == ['FromPrior', 'build']: return '(fpb_new %s)' % ' '.join(map(coq, a))
        if p[0] == 'Attachment': return '(ab_%s %s)' % (p[1], ' '.join(map(coq, a)))
        if p[0] in ('Algorithm', 'EncAlgorithm'): return '(JwsAlgOther %s)' % coq(a[0])
        raise KeyError(p)
    if k == 'method':
        if e[2] in NOOP: return coq(e[1])
        if e[2] == 'replace':
            raise KeyError('replace')
        kd = kind_of(e[1])
        return '(%s %s %s)' % (METHODS[kd][e[2]], ' '.join(map(coq, e[3])), coq(e[1]))
    raise KeyError(e)

TYMAP = {'&str': 'bytes', 'VerificationMethod': 'verification_method', 'DIDDoc': 'diddoc', 'Secret': 'secret',
         'DIDCommMessagingService': 'messaging_service', 'Service': 'service', 'Message': 'message',
         'FromPrior': 'from_prior', 'Vec<Secret>': 'list secret', 'String': 'bytes'}

CONST = re.compile(r'(?:pub(?:\(crate\))? )?(?:const|static ref) ([A-Z_0-9]+): ([^=]+?) =')

def constants(path):
    """name, type, expression, first line, last line"""
    text = open(SRC + path).read()
    for m in CONST.finditer(text):
        name, ty = m.group(1), m.group(2).strip().replace("'static ", '')
        l0 = text.count('\n', 0, m.start()) + 1
        # the item ends at the first ; outside strings and brackets
        i, depth = m.end(), 0
        while True:
            t = TOK.match(text, i)
            if t.group('op'):
                o = t.group('op')
                if o in '([{': depth += 1
                elif o in ')]}': depth -= 1
                elif o == ';' and depth == 0: break
            i = t.end()
        l1 = text.count('\n', 0, i) + 1
        yield name, ty, P(lex(text[m.end():i])).expr(), l0, l1

def vectors():
    out = ['(** Generated by tools/gen_tests.py from src/test_vectors: the documents, secrets, messages',
           '    and packed messages of the unit tests. *)',
           'From Verif.Model Require Import Prelude Json DidDoc FromPrior Message.',
           'Open Scope N_scope.', '']
    files = ['common.rs'] + ['did_doc/%s.rs' % x for x in ['alice', 'bob', 'charlie', 'mediator1', 'mediator2', 'mediator3']] + \
            ['secrets/%s.rs' % x for x in ['alice', 'bob', 'charlie', 'mediator1', 'mediator2', 'mediator3']] + \
            ['from_prior.rs', 'from_prior_jwt.rs', 'message.rs', 'plaintext.rs', 'signed.rs', 'encrypted.rs']
    for f in files:
        p = 'test_vectors/' + f
        if f == 'message.rs':
            text = open(SRC + p).read()
            i = text.index('fn _message()')
            e = P(lex(text[text.index('{', i) + 1:])).expr()
            out.append('(** src/%s:%d *)' % (p, text.count('\n', 0, i) + 1))
            out.append('Definition _message : message := %s.' % coq(e))
        for name, ty, e, l0, l1 in constants(p):
            TYPES[name] = ty
            if ty == 'Vec<Secret>': pass
            out.append('(** src/%s:%d-%d *)' % (p, l0, l1))
            out.append('Definition %s : %s := %s.' % (name, TYMAP[ty], coq(e)))
    return '\n'.join(out) + '\n'

# ---------------------------------------------------------------- tests
def tests(path):
    """the #[test] functions: name, first line, body"""
    text = open(SRC + path).read()
    for m in re.finditer(r'#\[(?:tokio::)?test\]\s*(?:async )?fn (\w+)\(\) \{', text):
        i, depth = m.end(), 1
        while depth:
            t = TOK.match(text, i)
            if t.group('op') == '{': depth += 1
            elif t.group('op') == '}': depth -= 1
            i = t.end()
        yield m.group(1), text.count('\n', 0, m.start(1)) + 1, text[m.end():i - 1]

def lets(body):
    d = {}
    for m in re.finditer(r'let (?:mut )?(\w+)(?:: [^=]+)? =', body):
        try:
            d.setdefault(m.group(1), []).append(P(lex(body[m.end():].split(';\n\n')[0] + ';')).expr())
        except SyntaxError:
            d.setdefault(m.group(1), []).append(None)
    return d

def err_kind(body):
    m = re.search(r'err\.kind\(\), ErrorKind::(\w+)', body)
    return m.group(1) if m else None

def check(out, name, cite, term, expected):
    out.append('(** %s *)' % cite)
    out.append('Definition r_%s := Eval vm_compute in %s.' % (name, term))
    out.append('Example %s : r_%s = %s. Proof. reflexivity. Qed.' % (name, name, expected))

HEAD = ['From Verif.Model Require Import Prelude Json Serde Base64 Crypto DidDoc Effects Keys Jws Jwe Message FromPrior Pack Unpack.',
        'From Verif.Spec Require Import Sha2.\nFrom Verif.Tests Require Import Real Check.', 'Open Scope N_scope.', '']

def parse_file():
    out = ['(** Generated by tools/gen_tests.py: the tests of src/jwe/parse.rs and src/jws/parse.rs. *)'] + HEAD
    n = 0
    for path, pre in [('jwe/parse.rs', 'jwe'), ('jws/parse.rs', 'jws')]:
        for name, line, body in tests(path):
            L = lets(body)
            msg = coq(L['msg'][0])
            f = 'parse_jwe' if pre == 'jwe' else 'parse_jws'
            if 'parse_compact(' in body: f = 'parse_compact'
            if 'verify_didcomm()' in body: f = 'parse_verify_jwe'
            k = err_kind(body)
            cite = 'src/%s:%d' % (path, line)
            if k:
                check(out, pre + '_' + name, cite, 'err_of (%s %s)' % (f, msg), 'Some ' + k)
            else:
                eq = {'parse_jwe': 'parsed_jwe_dec', 'parse_verify_jwe': 'parsed_jwe_dec', 'parse_jws': 'parsed_jws_dec',
                      'parse_compact': 'parsed_compact_dec'}[f]
                check(out, pre + '_' + name, cite, 'is_ok %s (%s %s) %s' % (eq, f, msg, coq(L['exp'][-1])), 'true')
            n += 1
    print('parse tests', n)
    return '\n'.join(out) + '\n'

KALG = {'Ed25519KeyPair': 'KEd25519', 'P256KeyPair': 'KP256', 'K256KeyPair': 'KK256', 'X25519KeyPair': 'KX25519'}

def helper_bodies(body):
    """local fns of a test: name -> body; and the body without them"""
    hs = {}
    while True:
        m = re.search(r'(?:async )?fn (\w+)', body)
        if not m: return hs, body
        i = m.end()
        while True:           # find the brace that opens the body
            t = TOK.match(body, i)
            i = t.end()
            if t.group('op') == '{': break
        j, depth = i, 1
        while depth:
            t = TOK.match(body, j)
            if t.group('op') == '{': depth += 1
            elif t.group('op') == '}': depth -= 1
            j = t.end()
        hs[m.group(1)] = body[i:j - 1]
        body = body[:m.start()] + body[j:]

def local_consts(path, out, skip=()):
    for name, ty, e, l0, l1 in constants(path):
        if name in skip: continue
        out.append('(** src/%s:%d-%d *)' % (path, l0, l1))
        out.append('Definition %s : bytes := %s.' % (name, coq(e)))

def calls(body):
    """calls _name::<generics>(args) at statement level or in a let"""
    for m in re.finditer(r'(?<![\w])(_\w+)(?=::<|\()', body):
        yield P(lex(body[m.start():])).expr()

def verify_file():
    path = 'jws/verify.rs'
    out = ['(** Generated by tools/gen_tests.py: the tests of src/jws/verify.rs. *)'] + HEAD
    local_consts(path, out)
    n = 0
    for name, line, body in tests(path):
        hs, main = helper_bodies(body)
        for i, c in enumerate(calls(main)):
            while c[0] == 'method': c = c[1]
            fn, gen, args = c[1][0], c[2], c[3]
            b = hs.get(fn, body)
            k = err_kind(b)
            exp = 'Err ' + k if k else 'Ok ' + re.search(r'assert_eq!\(res, (true|false)\)', b).group(1)
            f = 'verify_compact_text' if 'compact' in fn else 'verify_text'
            n += 1
            check(out, '%s_%d' % (name, i + 1), 'src/%s:%d' % (path, line),
                  '%s %s %s' % (f, KALG[gen[0]], ' '.join(map(coq, args))), exp)
    print('verify tests', n)
    return '\n'.join(out) + '\n'

def decrypt_file():
    path = 'jwe/decrypt.rs'
    out = ['(** Generated by tools/gen_tests.py: the tests of src/jwe/decrypt.rs.  Left out: the cases with',
           '    the 128-bit key wrapping of the RFC, which the library never instantiates. *)'] + HEAD
    seen = set()
    for q in ['jwe/mod.rs', path]:
        if os.path.exists(SRC + q):
            for name, ty, e, l0, l1 in constants(q):
                if name in seen: continue
                seen.add(name)
                out.append('(** src/%s:%d-%d *)' % (q, l0, l1))
                out.append('Definition %s : bytes := %s.' % (name, coq(e)))
    n = 0
    CE = {'A256CbcHs512': 'CA256CbcHs512', 'XC20P': 'CXC20P', 'A256Gcm': 'CA256Gcm'}
    for name, line, body in tests(path):
        hs, main = helper_bodies(body)
        for i, c in enumerate(calls(main)):
            fn, gen, args = c[1][0] if c[0] == 'call' else None, c[2], c[3]
            if 'A128Kw' in gen: continue
            ce = [CE[g] for g in gen if g in CE][0]
            kd = 'Kdf1pu' if 'Ecdh1PU' in gen else 'KdfEs'
            ka = [KALG[g] for g in gen if g in KALG][0]
            b = hs.get(fn, body)
            k = err_kind(b)
            n += 1
            term = 'decrypt_text %s %s %s %s' % (ce, kd, ka, ' '.join(map(coq, args[:3])))
            if k: check(out, '%s_%d' % (name, i + 1), 'src/%s:%d' % (path, line), 'err_of (%s)' % term, 'Some ' + k)
            else: check(out, '%s_%d' % (name, i + 1), 'src/%s:%d' % (path, line), 'is_ok bytes_dec (%s) %s' % (term, coq(args[3])), 'true')
    print('decrypt tests', n)
    return '\n'.join(out) + '\n'

def keys_file():
    path = 'utils/did.rs'
    out = ['(** Generated by tools/gen_tests.py: the tests of src/utils/did.rs on key representations. *)'] + HEAD
    n = 0
    for name, line, body in tests(path):
        if 'as_key_pair' not in name: continue
        L = lets(body)
        a, b = L['actual_key'][0], L['expected_key'][0]
        while a[0] == 'method': a = a[1]
        while b[0] == 'method': b = b[1]
        f = 'vm_key_pair' if a[1] == ['VerificationMethod'] else 'sec_key_pair'
        ka = KALG[b[1][0]]
        check(out, name, 'src/%s:%d' % (path, line), 'same_key (%s real %s) (%s, real_from_jwk %s %s)' % (f, coq(a), ka, ka, coq(b[3][0])), 'true')
        n += 1
    print('key tests', n)
    return '\n'.join(out) + '\n'

META = ['encrypted', 'authenticated', 'non_repudiation', 'anonymous_sender', 're_wrapped_in_forward', 'encrypted_from_kid',
        'encrypted_to_kids', 'sign_from', 'from_prior_issuer_kid', 'enc_alg_auth', 'enc_alg_anon', 'sign_alg', 'signed_message', 'from_prior']
ALGS = {('AnonCryptAlg', 'A256cbcHs512EcdhEsA256kw'): 'AnonA256cbcHs512', ('AnonCryptAlg', 'Xc20pEcdhEsA256kw'): 'AnonXc20p',
        ('AnonCryptAlg', 'A256gcmEcdhEsA256kw'): 'AnonA256gcm', ('AuthCryptAlg', 'A256cbcHs512Ecdh1puA256kw'): 'AuthA256cbcHs512',
        ('SignAlg', 'EdDSA'): 'SignEdDSA', ('SignAlg', 'ES256'): 'SignES256', ('SignAlg', 'ES256K'): 'SignES256K'}

def metadata(e, L):
    while e[0] == 'method': e = e[1]
    if e[0] == 'path': return metadata(L[e[1][-1]][0], L)
    f = dict(metadata(e[3], L)) if e[3] else {}
    f.update(e[2])
    return f

def cmeta(f):
    def c(v):
        if v[0] == 'call' and v[3][0][0] == 'path' and tuple(v[3][0][1]) in ALGS:
            return '(Some %s)' % ALGS[tuple(v[3][0][1])]
        return coq(v)
    return '(mkUM %s)' % ' '.join(c(f[k]) for k in META)

def ctext(e):
    if e[0] == 'method': return ctext(e[1])
    if e[0] == 'call': return '(%s %s)' % (e[1][0], ' '.join(map(coq, e[3])))
    return coq(e)

def unpack_file():
    path = 'message/unpack/mod.rs'
    out = ['(** Generated by tools/gen_tests.py: the tests of src/message/unpack/mod.rs that unpack a fixed',
           '    message. *)'] + HEAD
    out[-2] = 'From Verif.Spec Require Import Sha2.\nFrom Verif.Tests Require Import Real Check Vectors.'
    n = 0
    for name, line, body in tests(path):
        hs, main = helper_bodies(body)
        L = lets(main)
        for i, c in enumerate(calls(main)):
            while c[0] == 'method': c = c[1]
            fn, args = c[1][0], c[3]
            nm, cite = '%s_%d' % (name, i + 1), 'src/%s:%d' % (path, line)
            if fn == '_verify_unpack':
                check(out, nm, cite, 'unpacked %s %s %s' % (ctext(args[0]), coq(args[1]), cmeta(metadata(args[2], L))), 'true')
            elif fn == '_verify_unpack_malformed':
                check(out, nm, cite, 'unpack_err %s' % ctext(args[0]), 'Some Malformed')
            elif fn == '_verify_unpack_returns_error':
                check(out, nm, cite, 'unpack_err %s' % ctext(args[0]), 'Some ' + args[1][1][-1])
            else: continue
            n += 1
    print('unpack tests', n)
    return '\n'.join(out) + '\n'

if __name__ == '__main__':
    for name, f in [('Vectors', vectors), ('Parse', parse_file), ('Verify', verify_file), ('Decrypt', decrypt_file), ('Unpacking', unpack_file), ('KeyForms', keys_file)]:
        open(os.path.join(OUT, name + '.v'), 'w').write(f())
