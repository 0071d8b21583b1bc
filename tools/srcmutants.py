#!/usr/bin/env python3
"""Writes seeded/srcmutants.json: wrong versions of the Python text, to be tried by srcmutate.py."""
import json, os
L = []
def m(name, file, definition, claim, *edit):
    L.append({'name': name, 'file': file, 'definition': definition, 'claim': claim, 'edit': [list(e) for e in edit]})
R, I, D, F = 'record.py', '__init__.py', 'decoder.py', 'definitions/'
# record.py
m('py_len', R, 'Record.validate', 'C61, C01: only 132-character lines', ('if len(line) != 132:', 'if len(line) < 132:'))
m('py_tail', R, 'Record.validate', 'C61, C01: the last nine characters', ('line[-9:]', 'line[-8:]'))
m('py_starts', R, 'Record.validate', 'C61, C02: tailored records', ("startswith(('S', 'T'))", "startswith('S')"))
m('py_col', R, 'Record.read', 'C61, C03: column 13', ('line[4] + line[12]', 'line[4] + line[13]'))
m('py_raw', R, 'Record.read', 'C61, C05: identification by the given line', ('identifier_1 = line[4:6]', 'identifier_1 = self.raw[4:6]'))
m('py_isalnum', R, 'Record.read', 'C61: continuation record numbers', ('self.continuation.isalnum() == False', 'self.continuation.isdigit() == False'))
m('py_early', R, 'Record.read', 'C61, C14: the object after a refused line', ("    if self.validate(line) is False:\n      return False\n\n    # remove any surrounding whitespace\n    self.raw = line.strip()\n", "    self.raw = line.strip()\n    if self.validate(line) is False:\n      return False\n"))
m('py_notJ', R, 'Record.read', 'C61, C10: unknown application types', ('and not \'J\':', "and application_type != 'J':"))
m('py_noapp', R, 'Record.read', 'C61, C09: types without application type', ("raise ValueError(\"no hasattr(self.definition, 'app_idx')\")", 'return False'))
m('py_prim', R, 'Record.primary', 'C61, C11: primary()', ("self.continuation == '0' or self.continuation == '1'", "self.continuation == '1'"))
m('py_cont', R, 'Record.hasCont', 'C61, C11: hasCont()', ("    return self.continuation == '1'\n\n  def validate", "    return self.continuation == '0'\n\n  def validate"))
m('py_quote', R, 'Record.decode', 'C61, C31: quoted values', ('"\'{}\'".format(field.value)', '"{}".format(field.value)'))
m('py_order', R, 'Record.decode', 'C61, C31: the columns of the table', ("[field.name, \"'{}'\".format(field.value), field.decode(self)]", "[field.name, field.decode(self), \"'{}'\".format(field.value)]"))
m('py_silent', R, 'Record.decode', 'C61, C32: output=False prints nothing', ('    if output is True:\n      print(table)\n', '    print(table)\n'))
m('py_sort', R, 'Record.json', 'C61, C28: single-line JSON', ('data = json.dumps(d)\n', 'data = json.dumps(d, sort_keys=True)\n'))
m('py_indent', R, 'Record.json', 'C61, C30: pretty JSON', ('indent=4', 'indent=2'))
m('py_jsonval', R, 'Record.json', 'C61, C28: values are the columns', ('d.update({field.name: field.value})', 'd.update({field.value: field.name})'))
m('py_recs', R, 'records', 'C60: the dictionary of records', ("records['HC'] = HeliportTerminalWaypoint()", "records['HC'] = Waypoint(False)"))
m('py_recs2', R, 'records', 'C60: terminal waypoints', ("records['PC'] = Waypoint(False)", "records['PC'] = Waypoint(True)"))
m('py_default', R, 'records', 'C60, C61: sections without records', ("records['UR'] = RestrictiveAirspace()\n", "records['UR'] = RestrictiveAirspace()\nrecords['TN'] = GridMORA()\n"))
m('py_state', R, 'Record.__init__', 'C61: a new Record', ('self.definition = -1', 'self.definition = None'))
# __init__.py
m('py_parse', I, 'parse', 'C62, C34: the value of parse', ('    r.decode(output)\n    return True\n', '    r.decode(output)\n  return True\n'), ('  return True\n  return False\n', '  return True\n'))
m('py_parseout', I, 'parse', 'C62, C32: parse(line, output)', ('r.decode(output)', 'r.decode()'))
m('py_any', I, 'search', 'C62, C35: all filters', ('all(map(r.raw.__contains__, filters))', 'any(map(r.raw.__contains__, filters))'))
m('py_line', I, 'search', 'C62, C35: search prints the record', ('print(r.raw)', 'print(line)'))
m('py_reuse', I, 'search', 'C62: one Record for all lines', ('    for line in f.readlines():\n      r = Record()\n', '    r = Record()\n    for line in f.readlines():\n'))
m('py_count', I, 'search', 'C62, C35: the number of records', ('      print(r.raw)\n      count = count + 1\n', '      print(r.raw)\n    count = count + 1\n'))
m('py_colour', I, 'search', 'C62, C35: the colour', ("'green' if count else 'red'", "'red' if count else 'green'"))
m('py_break', I, 'read_file', 'C62, C37: every line is parsed', ('      parse(line, output)\n', '      if not parse(line, output):\n        return\n'))
m('py_fileout', I, 'read_file', 'C62, C32: read_file(path, output)', ('      parse(line, output)\n', '      parse(line)\n'))
m('py_join', I, 'read_folder', 'C62, C38: paths of the entries', ('os.path.join(path, file.name)', 'file.name'))
# decoder.py
m('py_year', D, 'field_032', 'C59, C16: the century', ('int(value[:2]) > 50', 'int(value[:2]) >= 50'))
m('py_freq', D, 'field_034', 'C59, C19: frequencies', ('      exit()\n    else:\n      return "{:.2f}".format(float(value)/100)', '      exit()\n    else:\n      return "{:.1f}".format(float(value)/100)'))
m('py_exit', D, 'field_034', 'C59, C43: exit()', ('      exit()\n', '      return value\n'))
m('py_var', D, 'field_039', 'C59, C22: magnetic variation', ('"{:03} {}".format(int(value[1:]), value[0])', '"{:04} {}".format(int(value[1:]), value[0])'))
m('py_zone', D, 'field_178', 'C59, C23: time zones', ("string.ascii_uppercase.index(value[0]) - 12", "string.ascii_uppercase.index(value[0]) - 11"))
m('py_hold', D, 'field_065', 'C59, C47: seconds', ('int(value[1])*6', 'int(value[1])*60'))
m('py_except', D, 'field_065', 'C59, C47: short values', ('except (ValueError, IndexError) as e', 'except ValueError as e'))
m('py_wp', D, 'field_017', 'C59, C24: waypoint description', ("s.write('Essential Waypoint\\n')", "s.write('Essential Waypoint')"))
m('py_leg', D, 'field_021', 'C59, C25: leg types', ('  value = value.strip()\n  if len(value) == 0:\n    return value\n\n  if not value.isalpha():\n    raise ValueError("Invalid Path', '  if len(value) == 0:\n    return value\n\n  if not value.isalpha():\n    raise ValueError("Invalid Path'))
m('py_section', D, 'field_004', 'C59, C26: names of sections', ("sections['HS'] = 'Heliport MSA'", "sections['HS'] = 'Heliport TAA'"))
m('py_name', D, 'field_178', 'C63: a name that is not imported', ('import io\nimport string\n', 'import io\n'))
m('py_type', D, 'field_045', 'C59, C63: arithmetic on a text', ('  if (value.isnumeric()):\n    return "{:.2f}".format(float(value)/100)\n  else:\n    return "BAD VALUE"\n\n\n# 5.46', '  if (value.isnumeric()):\n    return "{:.2f}".format(value/100)\n  else:\n    return "BAD VALUE"\n\n\n# 5.46'))
m('py_field', D, 'Field.decode', 'C59: Field.decode', ('return self.decode_fn(self.value, record)', 'return self.decode_fn(self.name, record)'))
# definitions
m('py_slice', F + 'GridMORA.py', 'GridMORA.read', 'C60, C06: columns of a field', ('r[13:16],', 'r[13:15],'))
m('py_decfn', F + 'CruisingTables.py', 'CruisingTables.read', 'C60: the decoder of a field', ('r[36],         decoder.field_165', 'r[36],         decoder.field_164'))
m('py_contidx', F + 'Airport.py', 'Airport.cont_idx', 'C60, C10: the continuation column', ('cont_idx = 21', 'cont_idx = 22'))
m('py_cases', F + 'Airport.py', 'Airport.read', 'C60, C10: application types', ("      case 'P':\n        return self.read_flight0(line)\n      case 'Q':\n        return self.read_flight1(line)", "      case 'P':\n        return self.read_flight1(line)\n      case 'Q':\n        return self.read_flight0(line)"))
m('py_self', F + 'Airport.py', 'Airport.read', 'C60, C63: a method that does not exist', ("        return self.read_cont(line)\n", "        return self.read_ext(line)\n"))
m('py_heli', F + 'MSA.py', 'MSA', 'C60: the name of the first identifier', ('if self.heliport is False:', 'if self.heliport is True:'))
# the text changed and the trees not, or the other way round
m('tx_len', R, 'Record.validate', 'C68: the text says what the trees say', ('if len(line) != 132:', 'if len(line) < 132:')); L[-1]['only'] = 'text'
m('tr_len', R, 'Record.validate', 'C68: the trees say what the text says', ('if len(line) != 132:', 'if len(line) < 132:')); L[-1]['only'] = 'trees'
m('tx_comment', R, 'Record.validate', 'C68: a comment is no statement', ("  def validate(self, line):\n    line = line.strip()", "  def validate(self, line):\n    # line = line.strip()")); L[-1]['only'] = 'text'
m('tx_indent', R, 'Record.validate', 'C68: indentation', ("    if len(line) != 132:\n      return False\n", "    if len(line) != 132:\n      return False\n      return False\n")); L[-1]['only'] = 'text'
m('tx_space', R, 'Record.validate', 'none: spaces within a line say nothing, C68 still holds', ('if len(line) != 132:', 'if  len( line ) !=132 :  # length')); L[-1]['only'] = 'text'
json.dump(L, open(os.path.join(os.path.dirname(os.path.abspath(__file__)), '..', 'seeded', 'srcmutants.json'), 'w'), indent=1)
for x in L:
    t = open('/repo/src/arinc424/' + x['file']).read()
    for a, b in x['edit']:
        if t.count(a) != 1: print(x['name'], t.count(a), repr(a))
        t = t.replace(a, b)
print(len(L))
