#!/usr/bin/env python3
"""Writes MANIFEST.json from the theorem names in rocq/theories/Props*.v and the notes below."""
import glob, json, os, re

ROOT = os.path.dirname(os.path.dirname(os.path.abspath(__file__)))
NOTES = {
    "C08": "False of the code: the nine regular grandfathered tags (witness zh-min) are is_normal and is_grandfathered at once. C08_exact_partial says exactly where it fails.",
    "C10": "False of the code: script() panics on a tag that is a language only (witness fr). Proved on all other normal tags, with the exact panic condition.",
    "C11": "False of the code: region() panics on language[-script] (witness fr). Proved on all other normal tags, with the exact panic condition.",
    "C12": "False of the code: variants() panics on language[-script][-region] (witness zh-Hant-TW). Proved on all other normal tags, with the exact panic condition.",
    "C13": "False of the code: extensions() panics on a tag without extensions and private use (witness zh-Hant-TW). Proved on all other normal tags, with the exact panic condition.",
    "C14": "False of the code: with extensions private_use() starts at the first extension (witness fr-FR-a-ext-b-ext1-ext2), and it panics on language[-script][-region]. C14_exact: right exactly when there is no extension and the tag does not end by its region.",
    "C15": "False of the code, as C14. Proved without extensions; the exact result with extensions is given too.",
    "C16": "False of the code (witness fr). C16_exact_partial gives the exact set of tags on which each accessor panics.",
    "C17": "False of the code. C17_exact: the six accessors give back the tag exactly when it has no extension and a private use sequence.",
    "C20": "False of the code: a proper prefix sorts after its extensions (witness fr, fr-FR). C20_exact gives the order for all inputs.",
    "C22": "False of the code for all types but Script, Region and ExtendedLangTag (C22_exact_partial).",
    "C28": "False of the code, each of its three parts (C28_each_refuted): lookup and singletons compare bytes. C28_partial: digits, and the case-blind consequences that hold.",
    "C32": "False of private_use() with extensions and of Language::primary() on 4 to 8 letters (exact conditions in C32_accessors_partial, C32_language_partial); proved of every other unchecked construction.",
    "C34": "False of no-bok, no-nyn, zh-min and zh-min-nan (exactly these, C34_partial); the primary languages agree for all nine.",
    "C45": "False of the code (witness zh-min, zh-min-nan). C45_grandfathered_order_partial: within the irregular and within the regular tags this is the only pair that fails.",
    "C69": "False of lists that repeat a singleton (witness a-bb-a-cc); C69_exact_partial: true exactly when equal singletons mean equal extensions.",
    "C53": "About a repaired version of two functions, not about the code as it is; C53_only_change ties it to the model of the code.",
    "C72": "About the text of the files with two places of normal/mod.rs changed (C72_patch says which), not about the code as it is.",
    "C74": "Proved as stated; constants are upper bounds, not least. find_list_end, which calls the closure it is given, is counted in its callers.",
    "C73": "Proved as stated; what str_newtype generates besides new (conversions to and from owned and borrowed strings) is not among the calls.",
}

theorems = {}
for path in sorted(glob.glob(os.path.join(ROOT, "rocq/theories/Props*.v"))):
    for name in re.findall(r"^Theorem (C\d\d\w*)", open(path).read(), re.M):
        theorems.setdefault(name[:3], []).append(name)

claims = []
for line in open(os.path.join(ROOT, "properties.jsonl")):
    ident = json.loads(line)["id"]
    names = theorems.get(ident, [])
    partial = any("_refuted" in n or n.endswith("_partial") for n in names)
    claims.append({
        "property": ident,
        "status": "partial" if partial or not names else "proved",
        "theorems": names,
        "note": NOTES.get(ident, "Proved as stated." if names else "Not proved yet."),
    })
with open(os.path.join(ROOT, "MANIFEST.json"), "w") as out:
    json.dump({"claims": claims}, out, indent=1)
    out.write("\n")
print(sum(c["status"] == "proved" for c in claims), "proved,", sum(c["status"] == "partial" for c in claims), "partial")
print([c["property"] for c in claims if not c["theorems"]])
