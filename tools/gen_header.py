import json
L={e['name']:e for e in json.load(open('/verif/tools/enums.json'))}
o=open('/verif/rocq/theories/Header.v','w')
o.write('''(** * PDU headers: [src/common/pdu_header.rs], [live_entity_pdu_header.rs],
    [dis_error.rs], [constants.rs]. *)
From Verif Require Import Base EnumModel Enums.

(** ** Named variants of the header enumerations *)

''')
for n in ['PduType','ProtocolFamily','ProtocolVersion']:
    e=L[n]
    o.write(f"(** enums.rs:{e['line']}-{e['end']}. *)\nDefinition {n} : Type := enum {n}_spec.\n")
    for v,c in e['variants']: o.write(f"Definition {n}_{v} : {n} := variant {n}_spec {c} eq_refl.\n")
    o.write('\n')
o.write(open('/verif/tools/header_tail.txt').read())
