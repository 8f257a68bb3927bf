Independent comparison of the model's text with the Rust text (run `python3 tools/crosscheck/X.py` from anywhere).
These scripts share nothing with the generators in tools/gen_*.py: they parse /repo and the finished .v files separately and compare
* serialize.py: the order of the fields each record writes and the put_* used;
* deserialize.py: the sequence of get_* and nested decoders of each record;
* enums.py: width, codes and default of each enumeration, and that all 402 decoders have the same shape;
* pdus.py: type, family, field order, field types and annotations of each `define_pdu!`.
What they print beyond the counts are the places their simple patterns do not understand
(loops over lists, the profile parameter, `Self::`, padding loops); these were compared by hand and agree.
