# Generates rocq/theories/Enums.v from /repo/src/common/enums.rs (parsed by tools/enums.json).
import json
L=json.load(open('/verif/tools/enums.json'))
out=open('/verif/rocq/theories/Enums.v','w')
out.write('(** * The 402 enumerations of [src/common/enums.rs].\n    Generated by tools/gen_enums.py from the source text; each definition cites\n    the lines of the enum declaration and of its [deserialize]. *)\nFrom Verif Require Import Base EnumModel.\nLocal Open Scope string_scope.\n\n')
def wrap(l):
    s='';line='   '
    for i,x in enumerate(l):
        t=str(x)+('; ' if i<len(l)-1 else '')
        if len(line)+len(t)>100: s+=line+'\n';line='   '
        line+=' '+t if line=='   ' else t
    return s+line
for e in L:
    out.write(f"(** enums.rs:{e['line']}-{e['end']}; deserialize {e['dl'][0]}-{e['dl'][1]} (get_u{e['get']}). *)\n")
    out.write(f"Definition {e['name']}_spec : enum_spec := mk_enum_spec \"{e['name']}\" {e['get']//8}\n   [\n{wrap([v for _,v in e['variants']])}\n   ] {e['default']} eq_refl eq_refl.\n\n")
out.write('(** All of them. *)\nDefinition all_enums : list enum_spec := [\n')
out.write(';\n'.join('  '+e['name']+'_spec' for e in L)+'\n].\n\n')
out.write('(** ** Field codecs: [FieldSerialize]/[FieldDeserialize]/[FieldLen] impls *)\n\n')
for e in L:
    if 'put' in e:
        n=e['name']
        assert e['get']==e['put']==e['as']
        out.write(f"(** enums.rs:{e['sl'][0]}-{e['ll'][1]}. *)\nDefinition {n} : Type := enum {n}_spec.\nDefinition {n}_serialize_field (v : {n}) : bytes := put_u{e['put']} (as_u{e['as']} (code v)).\nDefinition {n}_field_len (v : {n}) : N := {e['len']}.\n\n")
