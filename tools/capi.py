#!/usr/bin/env python3
"""Reads the bodies of the public functions in /repo/src/vanillapdf/implementation and writes theories/Model/Interface.v:
for every function its parameters and, in the order of the source, the checks, accesses, casts and stores of its body."""
import re, glob, sys

ROOT = '/repo/src/vanillapdf/'


def blank(t):
    """comments replaced by spaces, so that positions and lines stay"""
    t = re.sub(r'//[^\n]*', lambda m: ' ' * len(m.group(0)), t)
    return re.sub(r'/\*.*?\*/', lambda m: re.sub(r'[^\n]', ' ', m.group(0)), t, flags=re.S)


def close(t, i):
    d = 1
    while d:
        d += (t[i] == '{') - (t[i] == '}')
        i += 1
    return i


def norm(t):
    t = re.sub(r'\b(const|virtual|static|inline|noexcept|public:|private:|protected:)', '', t).replace('&', '').replace(' ', '')
    t = re.sub(r'\b(vanillapdf|semantics|syntax|contents)::', '', t)
    t = t.strip('*')
    m = re.match(r'OutputPointer<(.*)>$', t)
    if m:
        t = m.group(1)
    m = re.match(r'(?:Output)?Deferred(?:Container|Iterator)?<(.*)>$', t)
    if m:
        t = m.group(1)
    m = re.match(r'([\w:]+?)Ptr(<.*>)?$', t)
    if m:
        t = m.group(1) + (m.group(2) or '')
        t = re.sub(r'^Outp?ut', '', t) if t not in ('OutputStream',) else t
        t = re.sub(r'^Ouput', '', t)
    return ALIAS.get(t, t)


# the names of smart pointers that differ from the name of the class: semantics_fwd.h:70,82,88; string_object.h:107
ALIAS = {'Destination': 'DestinationBase', 'Annotation': 'AnnotationBase', 'Font': 'FontBase', 'StringObject': 'StringObjectBase'}
# static types the search below does not find by itself, each read in the source
KNOWN = {
    'ContentInstructionCollection_At': 'InstructionBase',                  # content_stream_instruction_base.h:28
    'ContentInstructionCollectionIterator_GetValue': 'InstructionBase',
    'DeveloperExtensions_GetIterator': 'DeveloperExtensions::Iterator',    # developer_extensions.h:44
    'DeveloperExtensionsIterator_GetKey': 'NameObject',
    'DeveloperExtensionsIterator_GetValue': 'DeveloperExtension',
    'PageContents_GetBaseObject': 'Object',                                # page_contents.h:11
    'PageObject_GetBaseObject': 'DictionaryObject',                        # page_node_base.h
    'PageRange_GetSubrange': 'PageRange::SubRange',
    'FileWriterObserver_CreateCustom': 'IFileWriterObserver',
    'EncryptionKey_CreateCustom': 'IEncryptionKey',
    'SigningKey_CreateCustom': 'ISigningKey',
    'FilterBase_Encode': 'Buffer', 'FilterBase_EncodeParams': 'Buffer', 'FilterBase_Decode': 'Buffer',   # filter.h
    'ObjectAttributeList_Create': 'AttributeList',
    'Xref_GetIterator': 'XrefBase::Iterator', 'XrefIterator_GetValue': 'XrefEntryBase',
    'XrefChain_GetIterator': 'XrefChain::Iterator', 'XrefChainIterator_GetValue': 'XrefBase',
    'Buffer_Create': 'Buffer', 'Buffer_CreateFromData': 'Buffer', 'BufferArray_Create': 'BufferArray',
    'InputOutputStream_ReadBuffer': 'Buffer', 'InputStream_ReadBuffer': 'Buffer',
    'DictionaryObjectIterator_GetKey': 'NameObject',                       # c_dictionary_object.cpp:131
    'IntegerObject_FromObject': 'IntegerObject', 'RealObject_FromObject': 'RealObject',
}

HDR, BASES = {}, {}
for f in glob.glob(ROOT + '**/*.h', recursive=True):
    t = blank(open(f).read())
    for m in re.finditer(r'\bclass (\w+)(?: final)?\s*(:[^{;]*)?\{', t):
        i = close(t, m.end())
        out, d = '', 0
        for ch in t[m.end():i - 1]:
            if ch == '{':
                d += 1
            if d == 0:
                out += ch
            if ch == '}':
                d -= 1
                out += ';'
        ms = HDR.setdefault(m.group(1), {})
        for mm in re.finditer(r'([\w:<>,\* &]+?)\s+[&\*]?(\w+)\s*\(([^()]*)\)\s*(const|noexcept|override|=|;)', out):
            ms.setdefault(mm.group(2), set()).add(norm(mm.group(1)))
        if m.group(2):
            s = re.sub(r'<[^<>]*(<[^<>]*>)?[^<>]*>', '', m.group(2)[1:])
            BASES.setdefault(m.group(1), [re.sub(r'.*::', '', re.sub(r'\b(public|virtual|private|protected)\b', '', b).strip())
                                          for b in s.split(',')])


def find(c, m):
    if c in HDR and m in HDR[c]:
        return HDR[c][m]
    for b in BASES.get(c, []):
        r = find(b, m) if b != c else None
        if r:
            return r


FUNS = []
for f in sorted(glob.glob(ROOT + 'implementation/**/*.cpp', recursive=True)):
    t = blank(open(f).read())
    for m in re.finditer(r'VANILLAPDF_API\s+error_type\s+CALLING_CONVENTION\s+(\w+)\s*\((.*?)\)\s*\{', t, re.S):
        i = close(t, m.end())
        params = []
        for x in re.sub(r'\s+', ' ', m.group(2)).split(','):
            x = x.strip()
            if x and x != 'void':
                mm = re.match(r'(?:const )?(\w+)\s*([\* ]*)\s*(\w+)$', x)
                params.append((mm.group(3), mm.group(1), mm.group(2).replace(' ', '')))
        FUNS.append(dict(file=f[len(ROOT + 'implementation/'):], name=m.group(1), params=params, body=t[m.end():i - 1],
                         l1=t[:m.start()].count('\n') + 1, l2=t[:i].count('\n') + 1))
BYNAME = {g['name']: g for g in FUNS}


def static_type(g):
    if g['name'] in KNOWN:
        return KNOWN[g['name']]
    b = re.sub(r'\s+', ' ', g['body'])
    e = re.findall(r'reinterpret_cast<\w+Handle\s*\*>\s*\((.*?)\)\s*;', b)[0]
    env = {}
    for mm in re.finditer(r'(\w+) = reinterpret_cast<([^;]*?)\s*\*>\((\w+)\);', b):
        env[mm.group(1)] = norm(mm.group(2))
    for mm in re.finditer(r'(?:^|[;{}]) ?((?:syntax::|semantics::|contents::)?[A-Z][\w:]*(?:<[\w:<>, ]*>)?) (\w+);', b):
        env[mm.group(2)] = norm(mm.group(1))

    def infer(x):
        x = x.strip()
        if x in env:
            return env[x]
        m = re.match(r'(.*)\.(AddRefGet|get)\(\)$', x)
        if m:
            return infer(m.group(1))
        m = re.match(r'make_deferred<(.*?)>\(', x)
        if m:
            return norm(m.group(1))
        m = re.match(r'(\w+)(?:->|\.)(\w+)\(.*\)$', x)
        if m:
            r = find((infer(m.group(1)) or '').split('::')[-1], m.group(2))
            return '|'.join(sorted(r)) if r else None
        m = re.match(r'([\w:]+)::(\w+)\(.*\)$', x)
        if m:
            r = find(m.group(1).split('::')[-1], m.group(2))
            return '|'.join(sorted(r)) if r else None
        m = re.search(r'([\w:]+(?:<[\w:<>, ]*>)?)(?: \*|\*| |& )' + re.escape(x) + r' = (.*?);', b)
        if m:
            return infer(m.group(2)) if m.group(1) == 'auto' else norm(m.group(1))
        m = re.search(r'([\w:]+(?:<[\w:<>, ]*>)?)(?: \*|\*| |& )' + re.escape(x) + r'\((.*?)\);', b)
        return norm(m.group(1)) if m else None
    return infer(e)


def ops(g):
    b = g['body']
    ix = {p: k for k, (p, _, _) in enumerate(g['params'])}
    ty = {p: h for p, h, _ in g['params']}
    m = re.search(r'SafeObjectConvert<\s*([\w:]+),\s*([\w:]+),\s*(\w+),\s*(\w+)\s*>\((\w+),\s*(\w+)\)', b)
    if m:
        p, q = ix[m.group(5)], ix[m.group(6)]
        return ['Check %d' % p, 'Check %d' % q, 'Convert %d "%s" %d "%s" "%s"' % (p, norm(m.group(1)), q, m.group(4), norm(m.group(2)))]
    m = re.search(r'ObjectRelease<\s*([\w:]+),\s*(\w+)\s*>\((\w+)\)', b)
    if m:
        return ['Check %d' % ix[m.group(3)], 'Drop %d "%s"' % (ix[m.group(3)], norm(m.group(1)))]
    m = re.search(r'static_cast<(\w+)\*>\((\w+)\);\s*(\w+)\*\s*(\w+) = reinterpret_cast<\w+\*>\(\w+\);\s*return (\w+)\((.*?)\);', b)
    if m:
        a = re.search(r'(\w+)\* %s = reinterpret_cast<\w+\*>\((\w+)\);' % m.group(2), b)
        inner = ops(BYNAME[m.group(5)])
        args = [x.strip() for x in m.group(6).split(',')]
        ren = [ix[a.group(2)] if x == m.group(4) else ix[x] for x in args]
        assert ren == list(range(len(ren)))
        return ['Upcast %d "%s" "%s"' % (ix[a.group(2)], a.group(1), m.group(1))] + inner
    ev = []
    alias = {}
    for m in re.finditer(r'(\w+)\s*=\s*reinterpret_cast<\s*(?:const )?([^;]*?)\s*\*\s*>\((\w+)\)\s*;', b):
        if m.group(3) in ix:
            alias[m.group(1)] = (m.group(3), norm(m.group(2)), m.end())
    for m in re.finditer(r'RETURN_ERROR_PARAM_VALUE_IF_NULL\((\w+)\)', b):
        x = m.group(1)
        p = alias[x][0] if x in alias else x
        ev.append((m.start(), 'Check %d' % ix[p]))
    hide = re.sub(r'RETURN_ERROR_PARAM_VALUE_IF_NULL\(\w+\)', lambda m: ' ' * len(m.group(0)), b)
    hide = re.sub(r'=\s*reinterpret_cast<[^;]*>\(\w+\)\s*;', lambda m: m.group(0) if 'Handle' in m.group(0) else ' ' * len(m.group(0)), hide)
    if re.search(r'\bobj->Release\(\)|\bfile->Release\(\)', b):
        (x, (p, c, _)), = alias.items()
        m = re.search(x + r'->Release', b)
        ev.append((m.start(), 'Drop %d "%s"' % (ix[p], c)))
        return [e for _, e in sorted(ev)]
    m = re.search(r'\b(\w+)->AddRef\(\)', b)
    if m and m.group(1) in alias:
        p, c, _ = alias[m.group(1)]
        ev.append((m.start(), 'Share %d "%s"' % (ix[p], c)))
        return [e for _, e in sorted(ev)]
    for x, (p, c, at) in alias.items():
        m = re.search(r'\b%s\b' % x, hide[at:])
        if m:
            ev.append((at + m.start(), 'Use %d "%s"' % (ix[p], c)))
    for p, h, s in g['params']:
        if p in [a[0] for a in alias.values()] or (s == '' and h not in ('string_type', 'byte_array_type')):
            continue
        if s == '**' and h.endswith('Handle'):
            m = re.search(r'\*%s\s*=\s*reinterpret_cast<(\w+)\s*\*>' % p, hide)
            c = static_type(g)
            ev.append((m.start(), 'Give %d "%s" "%s"' % (ix[p], m.group(1), c)))
            if c is None or '|' in c:
                print('static type of', g['name'], c, file=sys.stderr)
            continue
        if h == 'void':
            continue                                   # kept for the callbacks, not followed
        cond = re.search(r'nullptr != %s\b|\b%s != nullptr' % (p, p), hide)
        rest = hide if not cond else hide[cond.end():]
        m = re.search(r'\b%s\b' % p, rest)
        if m:
            at = m.start() + (cond.end() if cond else 0)
            ev.append((at, '%s %d' % ('TouchSome' if cond else 'Touch', ix[p])))
    m = re.search(r'\btry\b', b)
    if m:
        ev.append((m.start(), 'Work'))
    return [e for _, e in sorted(ev)]


def kind(h, s):
    if h.endswith('Handle') and s in ('*', '**'):
        return '%s "%s"' % ({'*': 'PHandle', '**': 'PResult'}[s], h)
    if s or h in ('string_type', 'byte_array_type') or h.endswith('Function'):
        return 'PPointer "%s"' % (h + s)
    return 'PValue "%s"' % h


USED = set()
rows = []
for g in FUNS:
    o = ops(g)
    for s in re.findall(r'(?:Use|Drop|Share) \d+ "([^"]*)"', ' '.join(o)):
        USED.add(s)
    for x in o:
        m = re.match(r'Give \d+ "\w+" "([^"]*)"', x)
        if m:
            USED.add(m.group(1))
        m = re.match(r'Convert \d+ "([^"]*)" \d+ "\w+" "([^"]*)"', x)
        if m:
            USED.update(m.groups())
        m = re.match(r'Upcast \d+ "([^"]*)" "([^"]*)"', x)
        if m:
            USED.update(m.groups())
    ps = '; '.join(kind(h, s) for _, h, s in g['params'])
    rows.append((g, ps, o))

todo, classes = sorted(USED | {'PageTreeNode', 'PageObject'}), []
seen = set(todo)
while todo:
    c = todo.pop(0)
    if c.endswith('Iterator') and '::' in c:
        bs = ['BaseIterator']
    else:
        bs = [b for b in BASES.get(c.split('::')[-1], []) if b]
    classes.append((c, bs))
    for b in bs:
        if b not in seen:
            seen.add(b)
            todo.append(b)

with open('/verif/rocq/theories/Model/Interface.v', 'w') as o:
    o.write('''(** The public functions of the C interface, written by tools/capi.py from src/vanillapdf/implementation/: one entry for each
    function, with the types of its parameters and what its body does with them in the order of the source (Model/Boundary.v
    explains the steps).  The comment before the entries names the file; the lines are beside each entry.

    The class of a [Give] is the static type of the pointer that the body stores through the result parameter, as declared by the
    methods it calls (the headers under src/vanillapdf). *)
From Coq Require Import List String.
From Verif Require Import Model.Boundary.
Import ListNotations.
Local Open Scope string_scope.

(** the base classes the headers under src/vanillapdf/ declare for each class, in the order of the declaration *)
Definition bases : list (string * list string) :=
  [ ''')
    o.write(';\n    '.join('("%s", [%s])' % (c, '; '.join('"%s"' % b for b in bs)) for c, bs in sorted(classes)))
    o.write(' ].\n')
    last = None
    names = []
    for g, ps, ol in rows:
        if g['file'] != last:
            if last:
                o.write(' ].\n')
            last = g['file']
            n = 'fns_' + re.sub(r'\W', '_', last.split('/')[-1][:-4])
            names.append(n)
            o.write('\n(** src/vanillapdf/implementation/%s *)\nDefinition %s : list fn :=\n  [ ' % (last, n))
        else:
            o.write(';\n    ')
        o.write('Fn "%s" [%s] [%s] (* %d-%d *)' % (g['name'], ps, '; '.join(ol), g['l1'], g['l2']))
    o.write(' ].\n\n(** every function of the interface *)\nDefinition interface : list fn :=\n  %s.\n' % '\n  ++ '.join(names))
print(len(rows), len(classes))
