#!/usr/bin/env python3
"""Writes rocq/theories/T_Docs.v: the XML documents of the project's unit tests as values of M_Xml.xml.
Usage: tools/xml2coq.py (reads /repo/sunspec/core/test)"""
import re, sys, os
import xml.etree.ElementTree as ET
T = '/repo/sunspec/core/test'
def s(x): return 'lit "%s"' % x.replace('"', '""')
def opt(x): return 'None' if x is None else '(Some (%s))' % s(x)
def elem(e, ind=1):
    attrs = '[' + '; '.join('(%s, %s)' % (s(k), s(v)) for k, v in e.attrib.items()) + ']'
    kids = '[' + (';\n' + ' ' * ind).join(elem(c, ind + 1) for c in e) + ']'
    return '(XE (%s) %s %s %s\n%s%s)' % (s(e.tag), attrs, opt(e.text), opt(e.tail), ' ' * ind, kids)
out = ['''(** * T_Docs: XML documents of the project's unit tests.  GENERATED by tools/xml2coq.py from /repo/sunspec/core/test:
    devices/*.xml, models/smdx_65000.xml and the two documents in test_device.py. *)
From Coq Require Import String.
From Verif Require Import Py M_Util M_Float M_Suns M_Xml.
Local Open Scope string_scope.
''']
def add(name, src, root):
    root.tail = None
    out.append('(** %s *)\nDefinition %s : xml :=\n %s.\n' % (src, name, elem(root)))
for f in ['mbmap_test_device_1', 'mbmap_test_device_1_a', 'mbmap_test_device_1_b', 'mbmap_test_device_1_c', 'mbmap_test_device_1_d',
          'mbmap_test_device_1_processed', 'pics_test_device_1', 'pics_test_device_2']:
    add('doc_' + f, 'test/devices/%s.xml' % f, ET.parse('%s/devices/%s.xml' % (T, f)).getroot())
add('doc_smdx_65000', 'test/models/smdx_65000.xml', ET.parse(T + '/models/smdx_65000.xml').getroot())
src = open(T + '/test_device.py').read()
for i in (1, 2):
    m = re.search(r'test_device_pointtype_smdx_%d = """(.*?)"""' % i, src, re.S)
    add('doc_pointtype_smdx_%d' % i, 'test_device.py: test_device_pointtype_smdx_%d' % i, ET.fromstring(m.group(1)))
# create_test_device_1: the values given to the points, in order: (model position, block, points_sf?, id, value)
body = re.search(r'def create_test_device_1.*?return d', src, re.S).group(0)
sets, mi, bi = [], -1, 0
for l in body.split('\n'):
    if re.search(r'= device.Model\(', l): mi += 1
    m = re.search(r'b = m\d\.blocks\[(\d)\]', l)
    if m: bi = int(m.group(1))
    m = re.search(r"b\.points(_sf)?\['(\w+)'\]\.value_base = +(.*)$", l)
    if m:
        v = eval(m.group(3))
        sets.append('(%d%%nat, %d%%nat, %s, lit "%s", %s)' % (mi, bi, 'true' if m.group(1) else 'false', m.group(2),
                    'VNone' if v is None else 'VStr (lit "%s")' % v if isinstance(v, str) else 'VInt (%d)' % v))
out.append('(** test_device.py: create_test_device_1, the assignments: position of the model, of the block, whether points_sf, id, value *)\n'
           'Definition test_device_1_values : list (nat * nat * bool * str * value) :=\n [' + ';\n  '.join(sets) + '].\n')
p = os.path.join(os.path.dirname(os.path.abspath(__file__)), '..', 'rocq', 'theories', 'T_Docs.v')
open(p, 'w').write('\n'.join(out))
