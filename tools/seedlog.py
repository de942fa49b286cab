#!/usr/bin/env python3
"""results.jsonl of mutate.py -> seeded/LOG.jsonl.  Manifest theorems that did not exist in the base a
mutant was run on are dropped from its list."""
import json, re, os, sys
T = '/verif/rocq/theories/'
def names(*fs):
    s = set()
    for f in fs:
        if os.path.exists(T + f + '.v'):
            s |= set(re.findall(r'^\s*(?:Theorem|Lemma|Corollary)\s+([\w\']+)', open(T + f + '.v').read(), re.M))
    return s
late1 = names('Bad', 'BadGrammar', 'Defects', 'TemplateScope', 'Specials', 'Prefix', 'Trailing', 'Less', 'LessOut', 'LessParse', 'Suppress', 'Budget')
late2 = names('Less', 'LessOut', 'LessParse', 'Suppress', 'Budget')
# theorems of later properties: (last mutant that did not have them in its base, names)
C4344 = {'metering_is_faithful','renderings_are_faithful','work_of_parsing','work_bounded','only_references_and_limits_decide','limits_decide_nothing_else','malformed_under_every_setting','accepted_under_every_setting'}
C43X = {'no_argument_is_dropped','amplification_without_references','memory_of_parsing','work_is_linear','searching_is_linear'}
C51 = {'no_words_are_invented','characters_come_from_names','every_answer_is_made_of_names'}
C4548 = {'wide_characters_are_opaque','wide_characters_are_opaque_into','only_own_classes_matter','ascii_needs_no_tables','no_invented_control_characters','one_line_stays_one_line','two_lines','options_set_their_flags','text_that_fits_is_written_in_place','full_size_buffer_is_never_reallocated','same_call_needs_no_more','warm_buffer_is_never_reallocated','bytes_and_characters_agree','texts_are_whole_characters','cuts_only_at_boundaries'}
C4950 = {'machine_integers_agree','machine_functions_return','unchecked_operations_are_safe','sizes_do_not_overflow','type_names_printed','no_name_is_dropped','name_under_all_flags'}
def absent(n):
    return (C4344 if n <= 87 else set()) | (C4548 if n <= 103 else set()) | (C4950 if n <= 113 else set()) | (C43X if n <= 120 else set()) | (C51 if n <= 124 else set())
RELABEL = {'m43': 'C01'}
TIGHT = {
 'm16': ['C16 had no theorem about an unbound index; added name_backref_missing, type_name_backref_missing, param_backref_missing; re-run as m16r'],
 'm09': ['C13 had no theorem about malformed dimensions; added array_bad_rank, array_negative_dimension, defect_rejected; re-run as m09r'],
 'm19': ['C18 did not speak of the tables after a template closes; added outside_after_template, outside_after_template_missing, outside_after_template_symbol, outside_params; re-run as m19r'],
 'm20': ['C18 did not speak of outer names seen inside a template; added inside_missing, inside_backref, inside_params_missing; re-run as m20r'],
}
DROP = {'m42', 'm42r'}
out = []
for l in open('/tmp/mut/results.jsonl'):
    r = json.loads(l); i = r['id']
    if i in DROP or 'theorems_failed' not in r: continue
    n = int(re.match(r'm(\d+)', i).group(1))
    late = late1 if n <= 50 and not i.endswith('r') else late2 if n <= 60 else set()
    out.append({'id': i, 'definition': r['file'][:-2] + '.' + r['definition'], 'edit': r['edit'], 'old': r['old'], 'new': r['new'],
      'claim_broken': RELABEL.get(i, r['claim']),
      'proofs_broken': sorted(set(r['broken_proofs']))[:12], 'proofs_broken_count': len(set(r['broken_proofs'])),
      'theorems_failed': [t for t in r['theorems_failed'] if t not in late and (r.get('mini') or t not in absent(n))],
      'theorems_tightened': TIGHT.get(i, [])})
# edits of the printed texts themselves (Show.v), tried on Wording.v alone; the model's texts are Show.v's by C32/C33
both = ['no_words_are_invented', 'characters_come_from_names', 'every_answer_is_made_of_names']
for i, d, e, pr in [
    ('t1', 'Show.pre', 'the class of a member pointer is printed twice', 'P_holds'),
    ('t2', 'Show.pre', 'the first parameter of a function pointer is printed in front as well', 'P_holds'),
    ('t3', 'Show.pre', "a stray word 'far' behind a pointer", 'P_holds'),
    ('t4', 'Show.adjustment_text', "a stray letter in front of `adjustor{", 'sl_adjustment'),
    ('t5', 'Show.pre', 'the element type of an array is printed twice', 'P_holds')]:
    out.append({'id': i, 'definition': d, 'edit': e, 'claim_broken': 'C51', 'proofs_broken': ['Wording.' + pr], 'proofs_broken_count': 1,
      'theorems_failed': both, 'theorems_tightened': []})
open('/verif/seeded/LOG.jsonl', 'w').write(''.join(json.dumps(o) + '\n' for o in out))
man = {c['property']: c['theorems'] for c in json.load(open('/verif/MANIFEST.json'))['claims']}
for o in out:
    if not set(man[o['claim_broken']]) & set(o['theorems_failed']): print('NO OWN FAILURE', o['id'], o['claim_broken'])
print(len(out))
