"""Writes MANIFEST.json from the table below and checks that every theorem named exists."""
import json, re, glob, os
here = os.path.dirname(os.path.abspath(__file__))
CLAIMS = [
 ("C01", "proved", ["c01_no_text_lost", "tokenizer_correct"], ""),
 ("C02", "proved", ["c02_true_positions"], ""),
 ("C03", "proved", ["c03_source_order"], ""),
 ("C04", "proved", ["c04_one_eof"], "Positions are bounded by the number of characters, hence below usize::MAX for inputs of fewer than usize::MAX characters."),
 ("C05", "proved", ["c05_terminates"], ""),
 ("C06", "proved", ["c06_panics_iff"], ""),
 ("C07", "proved", ["c07_located_errors"], ""),
 ("C08", "proved", ["c08_quoted_string", "c08_quoted_name", "c08_only_quoted_strings", "c08_only_quoted_names", "c08_independent"], ""),
 ("C09", "proved", ["c09_triple_quoted", "c09_only_triple_quoted"], ""),
 ("C10", "proved", ["c10_line_comment", "c10_block_comment", "c10_only_comments"], ""),
 ("C11", "proved", ["c11_word", "c11_only_words"], ""),
 ("C12", "proved", ["c12_number", "c12_numeric_test"], ""),
 ("C13", "proved", ["c13_inside_types", "c13_outside_types", "c13_nested"], ""),
 ("C14", "proved", ["c14_longest_operator"], ""),
 ("C15", "proved", ["c15_white_space"], ""),
 ("C16", "proved", ["c16_letter_case"], ""),
 ("C17", "proved", ["c17_exclusive_classes", "c17_reserved_not_identifier"], ""),
 ("C18", "proved", ["c13_range_refuted"], "The wished-for property is false of the code; the theorem is the counterexample."),
]
EXTRA = os.path.join(here, "manifest_parser.json")
if os.path.exists(EXTRA):
    CLAIMS += [tuple(x) for x in json.load(open(EXTRA))]
src = "".join(open(f).read() for f in glob.glob(os.path.join(here, "../rocq/theories/*.v")))
names = set(re.findall(r"^(?:Theorem|Lemma|Example|Corollary) (\w+)", src, re.M))
for p, s, ths, n in CLAIMS:
    for t in ths:
        assert t in names, t
props = {json.loads(l)["id"] for l in open(os.path.join(here, "../properties.jsonl"))}
for p, *_ in CLAIMS:
    assert p in props, p
json.dump({"claims": [{"property": p, "status": s, "theorems": t, "note": n} for p, s, t, n in CLAIMS]},
          open(os.path.join(here, "../MANIFEST.json"), "w"), indent=1)
print(len(CLAIMS), "claims; properties without a claim:", sorted(props - {c[0] for c in CLAIMS}))
