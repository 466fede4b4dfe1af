{"id": "C01", "title": "LangTag::new accepts exactly the RFC 5646 language tags", "statement": "For every byte string, LangTag::new succeeds if and only if the string matches the Language-Tag production of grammar.abnf (langtag, privateuse or grandfathered; ABNF literals case-insensitive).", "quantifier": "every byte string, of any length, valid UTF-8 or not", "why_tests_cant": "The set of inputs is infinite; tests sample a few hundred literals. The 183-state automaton in grammar.rs is machine generated and can be wrong in one transition.", "anchors": ["src/lib.rs: LangTag, grammar", "src/grammar.abnf: Language-Tag", "src/grammar.rs: LanguageTag::push, is_accepting, validate_bytes"]}
{"id": "C02", "title": "NormalLangTag::new accepts exactly the strings that decompose into well-formed subtags, in one way only", "statement": "For every byte string, NormalLangTag::new succeeds if and only if the string is the '-'-joined text of a language (2-3 letters with up to three 3-letter extlangs, or 4-8 letters), an optional 4-letter script, an optional region (2 letters or 3 digits), variants, extensions and an optional private use sequence; and that decomposition is unique.", "quantifier": "every byte string; every pair of decompositions of the same string", "why_tests_cant": "The set of inputs is infinite; tests sample a few hundred literals. Uniqueness is a statement about all pairs of decompositions.", "anchors": ["src/normal/mod.rs: NormalLangTag", "src/grammar.abnf: langtag", "src/grammar.rs: Langtag"]}
{"id": "C03", "title": "Every component type accepts exactly its production", "statement": "For each of PrivateUse, PrivateUseSubtag, NormalLangTag, Language, PrimaryLanguage, LanguageExtension, ExtendedLangTag, Script, Region, Variant, Variants, Extension, ExtensionSubtag and Extensions, new succeeds on a byte string if and only if the string matches the production the type is declared with, and the same holds of the direct description of the production (lengths and character classes).", "quantifier": "every byte string, for each of the 14 types", "why_tests_cant": "The set of inputs is infinite; tests sample a few hundred literals.", "anchors": ["src/grammar.rs: all automata", "src/grammar.abnf", "src/normal/*.rs: #[automaton(..)] attributes"]}
{"id": "C04", "title": "Grandfathered parsing is exactly the 26 registered tags, in any letter case", "statement": "GrandfatheredLangTag::new(b) returns Ok(g) if and only if b equals g's registered text up to ASCII letter case; it returns Err with the input unchanged for every other byte string; parsing as_bytes() of any g gives back g.", "quantifier": "every byte string and every grandfathered tag", "why_tests_cant": "Rejection has to hold of infinitely many strings, and acceptance of every case variant.", "anchors": ["src/grandfathered.rs: GrandfatheredLangTag::new, try_from, as_bytes, GRANDFATHERED"]}
{"id": "C05", "title": "Validation does not depend on letter case", "statement": "If two byte strings are equal up to ASCII letter case, then each type's new either accepts both or rejects both.", "quantifier": "every pair of byte strings equal up to ASCII case, for each of the 15 types", "why_tests_cant": "Every tag has exponentially many case variants.", "anchors": ["src/grammar.rs: push of every automaton"]}
{"id": "C06", "title": "Accepted strings are ASCII subtags of length 1 to 8", "statement": "A string accepted by LangTag::new is non-empty, contains only ASCII letters, digits and '-', neither starts nor ends with '-', has no two consecutive '-', and each of its subtags has between 1 and 8 characters. A string with a byte >= 0x80 is rejected whatever the UTF-8 decoder makes of it.", "quantifier": "every byte string; every UTF-8 decoder that decodes ASCII bytes as themselves and other bytes as an error or a non-ASCII character", "why_tests_cant": "The set of inputs is infinite; tests sample a few hundred literals.", "anchors": ["src/grammar.rs: validate_bytes", "src/lib.rs: LangTag"]}
{"id": "C07", "title": "Classification is total and exclusive", "statement": "On every accepted LangTag, as_typed() and kind() return without panicking; the kind is Normal exactly when the text matches langtag, PrivateUse exactly when it matches privateuse, and Grandfathered exactly when it is one of the 17 irregular tags.", "quantifier": "every accepted language tag", "why_tests_cant": "The unwrap() in as_typed is safe only if the union of three parsers covers the automaton, for all inputs.", "anchors": ["src/lib.rs: LangTag::as_typed, LangTag::kind, TypedLangTag::kind, Kind"]}
{"id": "C08", "title": "The is_* predicates agree with kind()", "statement": "For every accepted LangTag, exactly one of is_normal(), is_private_use() and is_grandfathered() holds, and it is the one kind() names.", "quantifier": "every accepted language tag", "why_tests_cant": "A universally quantified agreement between independent parsers.", "anchors": ["src/lib.rs: LangTag::is_normal, is_private_use, is_grandfathered, kind"]}
{"id": "C09", "title": "language() is the language production of the tag", "statement": "NormalLangTag::language() never panics and returns exactly the primary subtag with its extlangs, for every normal tag. LangTag::language() is Some exactly for normal tags, with that value, and None for private use and irregular grandfathered tags; TypedLangTag::language() agrees with it.", "quantifier": "every accepted language tag", "why_tests_cant": "The end of the language is found by scanning; wrong only for particular subtag shapes.", "anchors": ["src/normal/mod.rs: NormalLangTag::language, language_end, find_list_end", "src/lib.rs: LangTag::language, TypedLangTag::language"]}
{"id": "C10", "title": "script() is the script subtag", "statement": "For every normal tag, script() returns the script subtag when there is one and None when there is none.", "quantifier": "every normal language tag", "why_tests_cant": "Depends on which subtags are present and on where the string ends; the tests only use tags with trailing subtags.", "anchors": ["src/normal/mod.rs: script, script_range", "src/lib.rs: LangTag::script"]}
{"id": "C11", "title": "region() is the region subtag", "statement": "For every normal tag, region() returns the region subtag when there is one and None when there is none.", "quantifier": "every normal language tag", "why_tests_cant": "As for script().", "anchors": ["src/normal/mod.rs: region, region_range", "src/lib.rs: LangTag::region"]}
{"id": "C12", "title": "variants() is the list of variant subtags", "statement": "For every normal tag, variants() returns the '-'-joined variant subtags, empty if there are none; LangTag::variants() is empty for tags that are not normal.", "quantifier": "every normal language tag, with any number of variants", "why_tests_cant": "Unbounded number of variants and arbitrary continuation of the tag.", "anchors": ["src/normal/mod.rs: variants, variants_range", "src/lib.rs: LangTag::variants"]}
{"id": "C13", "title": "extensions() is the list of extensions", "statement": "For every normal tag, extensions() returns the '-'-joined extensions, empty if there are none; LangTag::extensions() is empty for tags that are not normal.", "quantifier": "every normal language tag, with any number of extensions", "why_tests_cant": "Unbounded number of extensions and arbitrary continuation of the tag.", "anchors": ["src/normal/mod.rs: extensions, extensions_range", "src/lib.rs: LangTag::extensions"]}
{"id": "C14", "title": "private_use() is the private use sequence", "statement": "For every normal tag, private_use() returns the private use sequence starting at its 'x' when there is one, and None when there is none.", "quantifier": "every normal language tag", "why_tests_cant": "Depends on the combination of extensions and private use; the tests have no tag with both.", "anchors": ["src/normal/mod.rs: private_use, private_use_offset", "src/lib.rs: LangTag::private_use"]}
{"id": "C15", "title": "private_use_subtags() yields the private use subtags", "statement": "For every normal tag, private_use_subtags() yields exactly the subtags after the 'x', in order, and nothing if there is no private use sequence.", "quantifier": "every normal language tag, every number of next() calls", "why_tests_cant": "As for private_use().", "anchors": ["src/normal/mod.rs: private_use_subtags", "src/lib.rs: LangTag::private_use_subtags", "src/normal/private_use.rs: PrivateUseIter"]}
{"id": "C16", "title": "No accessor panics on an accepted tag", "statement": "For every accepted language tag, language(), script(), region(), variants(), extensions(), private_use() and private_use_subtags() return normally.", "quantifier": "every accepted language tag, every accessor", "why_tests_cant": "Slices are computed from scanned offsets; the out-of-range case needs particular tags.", "anchors": ["src/normal/mod.rs: find_list_end, *_range", "src/lib.rs: LangTag accessors"]}
{"id": "C17", "title": "The component accessors reassemble the tag", "statement": "Joining language(), script(), region(), variants(), extensions() and private_use() with '-' (skipping absent and empty parts) gives back the text of the normal tag, byte for byte.", "quantifier": "every normal language tag", "why_tests_cant": "Loss or duplication of a part shows only for particular combinations of components.", "anchors": ["src/normal/mod.rs: all accessors"]}
{"id": "C18", "title": "Equality is ASCII case-insensitive equality, an equivalence", "statement": "== on every type holds exactly when both texts have the same length and agree byte by byte up to ASCII letter case; it is reflexive, symmetric and transitive, and never panics.", "quantifier": "every pair (triple) of byte strings", "why_tests_cant": "Equivalence laws range over all pairs and triples.", "anchors": ["src/utils.rs: case_insensitive_eq, into_smallcase", "src/lib.rs, src/normal/**: PartialEq, Eq impls"]}
{"id": "C19", "title": "cmp is a total order consistent with ==", "statement": "cmp terminates without panicking, returns Equal exactly when == holds, cmp(b,a) is the reverse of cmp(a,b), Less and Greater are transitive, and arguments equal under == are interchangeable; partial_cmp is Some of it.", "quantifier": "every pair (triple) of byte strings", "why_tests_cant": "Order laws range over all triples.", "anchors": ["src/utils.rs: case_insensitive_cmp", "src/lib.rs, src/normal/**: Ord, PartialOrd impls"]}
{"id": "C20", "title": "cmp is the lexicographic order of the lowercase texts", "statement": "For every two tags, cmp gives the usual lexicographic order (as for str) of their lowercase texts, in particular a tag sorts before its own extensions ('fr' before 'fr-FR').", "quantifier": "every pair of byte strings", "why_tests_cant": "Differs from a look-alike order only when one text is a prefix of the other.", "anchors": ["src/utils.rs: case_insensitive_cmp"]}
{"id": "C21", "title": "Equal values hash equally, whatever the hasher", "statement": "If two values are equal under ==, hashing them drives any hasher from any state to the same state; and the sequences of bytes fed to the hasher are equal only if the values are ==.", "quantifier": "every pair of byte strings, every hasher and hasher state", "why_tests_cant": "Ranges over all hashers and all strings.", "anchors": ["src/utils.rs: case_insensitive_hash", "src/lib.rs, src/normal/**: Hash impls"]}
{"id": "C22", "title": "The hash input is prefix-free", "statement": "The sequence of bytes one value feeds to a hasher is never a proper prefix of the sequence another value of the same type feeds (what core::hash::Hash asks of implementations so that composite keys do not collide systematically).", "quantifier": "every pair of accepted tags", "why_tests_cant": "A universal statement over pairs of tags.", "anchors": ["src/utils.rs: case_insensitive_hash"]}
{"id": "C23", "title": "Variants iterate like a deque under any interleaving of next and next_back", "statement": "Starting from Variants::iter() on accepted variants, any sequence of next() and next_back() calls gives exactly what popping from the front and the back of the list of variant subtags gives, without panicking, including after exhaustion.", "quantifier": "every accepted Variants value and every finite sequence of next/next_back calls", "why_tests_cant": "The number of interleavings is exponential in the number of variants.", "anchors": ["src/normal/variant.rs: VariantsIter::next, next_back", "src/normal/mod.rs: find_segment_end, find_segment_start"]}
{"id": "C24", "title": "Variants::first and Variants::last are the first and last subtags", "statement": "first() is the first variant subtag and last() the last one; both are None exactly when the list is empty.", "quantifier": "every accepted Variants value", "why_tests_cant": "The set of inputs is infinite; tests sample a few hundred literals.", "anchors": ["src/normal/variant.rs: first, last"]}
{"id": "C25", "title": "Extension::singleton and Extension::iter give the parts of the extension", "statement": "For every accepted Extension, singleton() is its first character, a valid singleton, and iter() yields exactly its subtags in order, then None forever, without panicking.", "quantifier": "every accepted Extension, every number of next() calls", "why_tests_cant": "The set of inputs is infinite; tests sample a few hundred literals.", "anchors": ["src/normal/extension.rs: Extension::singleton, iter, ExtensionIter"]}
{"id": "C26", "title": "Extensions::iter yields the extensions in order", "statement": "For every accepted Extensions value, iter() yields exactly its extensions, in order, each with all its subtags, then None forever, without panicking.", "quantifier": "every accepted Extensions value, every number of next() calls", "why_tests_cant": "The set of inputs is infinite; tests sample a few hundred literals.", "anchors": ["src/normal/extension.rs: Extensions::iter, ExtensionsIter"]}
{"id": "C27", "title": "Extensions::get finds the first extension with the given singleton byte", "statement": "For every accepted Extensions value and every Singleton, get() terminates without panicking and returns the first extension whose singleton is that byte, complete with all its subtags, and None exactly when no extension has it. A subtag that begins with the same letter is never mistaken for it.", "quantifier": "every accepted Extensions value, every singleton", "why_tests_cant": "The scan has to skip arbitrarily many subtags.", "anchors": ["src/normal/extension.rs: Extensions::get"]}
{"id": "C28", "title": "Extension lookup ignores letter case", "statement": "As language tags are case-insensitive, Extensions::get gives == results for singletons that differ only in letter case and for Extensions values that are ==; and == extensions have == singletons.", "quantifier": "every accepted Extensions value, every singleton, every case variant", "why_tests_cant": "Exponentially many case variants.", "anchors": ["src/normal/extension.rs: Extensions::get, Extension::singleton, Singleton (derived PartialEq)"]}
{"id": "C29", "title": "Extensions::iter_extension yields the subtags of the first matching extension", "statement": "iter_extension(s) yields exactly the subtags of the extension get(s) returns, in order, and nothing if get(s) is None; then None forever.", "quantifier": "every accepted Extensions value, every singleton, every number of next() calls", "why_tests_cant": "The set of inputs is infinite; tests sample a few hundred literals.", "anchors": ["src/normal/extension.rs: Extensions::iter_extension, ExtensionIter::default"]}
{"id": "C30", "title": "PrivateUse::iter yields the private use subtags in order", "statement": "For every accepted PrivateUse value, iter() yields exactly the subtags after the leading 'x', in order, then None forever, without panicking.", "quantifier": "every accepted PrivateUse value, every number of next() calls", "why_tests_cant": "The set of inputs is infinite; tests sample a few hundred literals.", "anchors": ["src/normal/private_use.rs: PrivateUse::iter, PrivateUseIter"]}
{"id": "C31", "title": "Language::primary, extension and extension_subtags split the language", "statement": "For every accepted Language, primary() is its first subtag, extension() the '-'-joined extlangs or None if there are none, extension_subtags() yields the (at most three) extlangs in order; primary and extension reassemble to the language.", "quantifier": "every accepted Language", "why_tests_cant": "The set of inputs is infinite; tests sample a few hundred literals.", "anchors": ["src/normal/language/mod.rs: primary, extension, extension_subtags", "src/normal/language/extlang.rs: LanguageExtension::iter, LanguageExtensionIter"]}
{"id": "C32", "title": "Values built with new_unchecked satisfy their type's grammar", "statement": "Every value the crate builds with new_unchecked from an accepted value (accessors, iterators, get, primary, extension, grandfathered language, EMPTY constants) would be accepted by the checked constructor of its type.", "quantifier": "every accepted value and every accessor, iterator step and constant", "why_tests_cant": "Violations show only for particular tags; the unsafe code skips the check that would reveal them.", "anchors": ["src/normal/**: new_unchecked call sites", "src/grandfathered.rs: language", "src/normal/variant.rs: EMPTY", "src/normal/extension.rs: EMPTY"]}
{"id": "C33", "title": "Singleton constructors accept exactly the singleton production and agree", "statement": "Singleton::new, try_from(u8), try_from(char), from_string and from_str accept exactly one ASCII letter or digit other than x and X, agree with one another, keep the byte (unwrap, == u8, == char) and hand back the rejected input otherwise.", "quantifier": "every byte, every character, every string", "why_tests_cant": "All Unicode scalar values and all strings.", "anchors": ["src/normal/extension.rs: Singleton"]}
{"id": "C34", "title": "Regular grandfathered tags: language agrees with the normal reading", "statement": "For each grandfathered tag, GrandfatheredLangTag::language() is None exactly for the irregular ones; for the regular ones it equals what LangTag::language() returns for the same text.", "quantifier": "all 26 grandfathered tags, in any letter case", "why_tests_cant": "Relates two independent code paths for every case variant of each tag.", "anchors": ["src/grandfathered.rs: language", "src/lib.rs: LangTag::language"]}
{"id": "C35", "title": "Accessors commute with letter case", "statement": "If two normal tags are == then each accessor gives == results on both: language, script, region, variants, extensions and private_use agree up to ASCII letter case, and one panics exactly when the other does.", "quantifier": "every pair of normal tags equal up to ASCII case", "why_tests_cant": "Exponentially many case variants.", "anchors": ["src/normal/mod.rs: all accessors"]}
{"id": "C36", "title": "Component ranges are in bounds, ordered and disjoint", "statement": "The slices that language, script, region, variants and extensions return are at increasing, non-overlapping positions of the tag, each starting at the beginning of a subtag and ending at the end of one; text is borrowed unchanged (letter case preserved). The positions are determined by the components before, and an empty list of variants or extensions is where it would be inserted.", "quantifier": "every normal language tag", "why_tests_cant": "The set of inputs is infinite; tests sample a few hundred literals.", "anchors": ["src/normal/mod.rs: language_end, script_range, region_range, variants_range, extensions_range"]}
{"id": "C37", "title": "Every scan terminates", "statement": "Every accessor, iterator step, comparison, hash and validation terminates on every input, in a number of loop steps bounded by the length of the input.", "quantifier": "every byte string, also those no constructor accepts", "why_tests_cant": "Non-termination cannot be observed by a finite test run.", "anchors": ["src/normal/mod.rs: find_list_end, find_segment_end, find_segment_start", "src/utils.rs", "src/grammar.rs: validate_bytes"]}
{"id": "C38", "title": "Parts of a normal tag are themselves tags", "statement": "For every normal tag, its language alone, and the tag cut after its script, region, any of its variants or any of its extensions, are accepted by NormalLangTag::new, and cutting does not change the components that are kept; a private use sequence alone is accepted by LangTag::new.", "quantifier": "every normal language tag and every cut between components", "why_tests_cant": "The set of inputs is infinite; tests sample a few hundred literals.", "anchors": ["src/grammar.rs: Langtag", "src/normal/mod.rs"]}
{"id": "C39", "title": "Normal tags compose from accepted components", "statement": "The '-'-join of an accepted Language, optional Script, optional Region, Variants, Extensions and optional PrivateUse is accepted by NormalLangTag::new, and the components of the result are the ones it was built from.", "quantifier": "all accepted components", "why_tests_cant": "The set of inputs is infinite; tests sample a few hundred literals.", "anchors": ["src/grammar.rs: Langtag", "src/normal/mod.rs"]}
{"id": "C40", "title": "Iterators are finite and fused from any state", "statement": "From any iterator state (even one new() would not produce), the results of successive next() calls (and next_back() for variants) are a finite run of items, at most as many as the bytes left, followed by None for ever. The iterators over subtags, from any position of any ASCII text, give the pieces between the '-' in order (all but an empty last one). An iterator made by empty() or Default::default() gives only None.", "quantifier": "all iterator states, all numbers and interleavings of calls", "why_tests_cant": "States and call sequences are unbounded; tests exhaust a few short iterators once.", "anchors": ["src/normal/private_use.rs:70-84", "src/normal/extension.rs:177-191", "src/normal/extension.rs:283-302", "src/normal/language/extlang.rs:77-91", "src/normal/variant.rs:129-157"]}
{"id": "C41", "title": "Derived Eq, Ord and Hash of Kind, GrandfatheredLangTag and Singleton are coherent", "statement": "For each of the three types, == is equality of values, cmp a total order consistent with it, partial_cmp is Some of it, and two values hash equally with every hasher exactly when they are equal.", "quantifier": "all values, all hashers, all hasher states", "why_tests_cant": "Quantifies over every hasher and hasher state.", "anchors": ["src/lib.rs:287-292", "src/grandfathered.rs:21-51", "src/normal/extension.rs:10"]}
{"id": "C42", "title": "GrandfatheredLangTag values are determined by their texts", "statement": "Two GrandfatheredLangTag values are == exactly when their texts are == as tags; the table GRANDFATHERED lists each variant once, in declaration order.", "quantifier": "all pairs of variants", "why_tests_cant": "The table and the enum are written separately; a missing or doubled entry is silent.", "anchors": ["src/grandfathered.rs:22-60", "src/grandfathered.rs:93-124"]}
{"id": "C43", "title": "Display round trips", "statement": "Display of a Singleton is its one character and parses back to it; Display of a GrandfatheredLangTag is its registered text, which parses back to it and is an accepted LangTag.", "quantifier": "all accepted singletons, all grandfathered tags", "why_tests_cant": "All values of both types, through two parsers and the automaton.", "anchors": ["src/normal/extension.rs:86-90", "src/grandfathered.rs:127-152"]}
{"id": "C44", "title": "langtag! evaluates exactly on the well-formed tags", "statement": "The macro langtag! evaluates to its argument, unchanged, when it matches Language-Tag, and panics otherwise.", "quantifier": "all string literals", "why_tests_cant": "All strings.", "anchors": ["src/lib.rs:207-215"]}
{"id": "C45", "title": "The order of GrandfatheredLangTag is the order of the texts", "statement": "For all grandfathered tags, cmp of the enum values is cmp of the tags with the same texts.", "quantifier": "all pairs of variants", "why_tests_cant": "Declaration order and text order are unrelated pieces of code.", "anchors": ["src/grandfathered.rs:21-51", "src/utils.rs:30-49"]}
{"id": "C46", "title": "Case-insensitive equality of tags is respected by every query", "statement": "If two tags are == (equal up to letter case) and one is accepted, then so is the other; kind, is_normal, is_private_use, is_grandfathered and as_grandfathered agree on both, as_normal, as_private_use and as_typed agree up to case, and every accessor gives == results, or panics, on both.", "quantifier": "all pairs of tags equal up to case", "why_tests_cant": "All tags and all ways to change case.", "anchors": ["src/lib.rs:87-177"]}
{"id": "C47", "title": "Inclusions between the types", "statement": "Every NormalLangTag and PrivateUse text is a LangTag; a LangTag is a normal tag, a private use tag or an irregular grandfathered tag; every Language is a NormalLangTag; every PrimaryLanguage and every Script text is a Language; every ExtendedLangTag is a LanguageExtension and a PrimaryLanguage text; every Variant is a Variants and an ExtensionSubtag text; every Extension an Extensions; every ExtensionSubtag a PrivateUseSubtag.", "quantifier": "all byte strings", "why_tests_cant": "Relates independently generated automata on all strings.", "anchors": ["src/grammar.abnf:1-51", "src/grammar.rs"]}
{"id": "C48", "title": "Concatenation laws", "statement": "The '-'-join of two accepted Variants (or Extensions) is accepted, iterates as the first then the second, and get on it is get on the first or else on the second.", "quantifier": "all pairs of accepted values, all singletons, all call sequences", "why_tests_cant": "Unbounded lists; get scans bytes and could match across the seam.", "anchors": ["src/normal/variant.rs:69-157", "src/normal/extension.rs:214-302"]}
{"id": "C49", "title": "language() is idempotent", "statement": "The language of a normal tag, read as a tag of its own, is a normal tag whose language() is itself.", "quantifier": "all normal tags", "why_tests_cant": "All tags.", "anchors": ["src/normal/mod.rs:34-43"]}
{"id": "C50", "title": "RFC 4647 lookup truncation stays within the accepted tags", "statement": "Removing the last subtag of a normal tag, and then any single-character subtags left at the end, gives an accepted, strictly shorter NormalLangTag, until only one subtag is left.", "quantifier": "all normal tags", "why_tests_cant": "All tags and all truncation points.", "anchors": ["src/normal/mod.rs:20-31", "src/grammar.abnf:5-10"]}
{"id": "C51", "title": "Collecting forwards and backwards", "statement": "Collecting Variants::iter() gives the variants in order, collecting it from the back gives the reverse; collecting Extensions::iter() gives the extensions in order.", "quantifier": "all accepted values", "why_tests_cant": "Unbounded lists.", "anchors": ["src/normal/variant.rs:116-157", "src/normal/extension.rs:278-302"]}
{"id": "C52", "title": "Acceptance follows the text of grammar.abnf", "statement": "Each type's constructor accepts exactly the strings derived, by the rules of ABNF (RFC 5234), from the rule of that name in the shipped file grammar.abnf, read as text. Also for Singleton and GrandfatheredLangTag.", "quantifier": "all byte strings, all 15 exported rules plus singleton and grandfathered", "why_tests_cant": "Infinitely many strings; tests never read the grammar file, so a drift between the checked-in automata and the file goes unnoticed.", "anchors": ["src/grammar.abnf", "src/lib.rs:43-66", "src/grammar.rs", "src/normal/extension.rs Singleton::new", "src/grandfathered.rs GrandfatheredLangTag::new"]}
{"id": "C53", "title": "Two changed lines repair the accessors", "statement": "If find_list_end returned its offset when that offset is past the end, and private use started after the extensions, then language(), script(), region(), variants(), extensions() and private_use() would return the components of every normal tag, never panic, and give back the tag when joined. Wherever the code as it is returns, the repaired code returns the same (private use: on tags without extensions).", "quantifier": "all normal tags; conservativity over all byte strings", "why_tests_cant": "Unbounded tags; shows that the two defects behind C10-C17 are the only ones.", "anchors": ["src/normal/mod.rs:129-137", "src/normal/mod.rs:181-201"]}
{"id": "C54", "title": "Walking a tag visits its subtags", "statement": "From a LangTag that is normal, language().primary() and extension_subtags() give the primary and extended language subtags; whenever variants() returns, iterating it in any mix of directions gives the variants; whenever extensions() returns, iterating it, looking up by singleton and iterating each extension gives the extensions and their subtags.", "quantifier": "all normal tags, all sequences of calls", "why_tests_cant": "Unbounded tags and call histories.", "anchors": ["src/lib.rs:87-132", "src/normal/variant.rs:116-157", "src/normal/extension.rs:123-302", "src/normal/language/mod.rs:33-64"]}
{"id": "C55", "title": "Accessors tell tags apart", "statement": "Two normal tags are == exactly when their language(), script(), region(), variants() and private_use() agree up to ASCII case (both returning or both panicking).", "quantifier": "all pairs of normal tags", "why_tests_cant": "All pairs of tags.", "anchors": ["src/normal/mod.rs:33-150"]}
{"id": "C56", "title": "Values with a common prefix are contiguous in the order", "statement": "Under cmp, any value between two values that start with p (up to case) starts with p, and p itself is the last of the values that start with p; so a range of an ordered map keyed by tags finds all tags with a given prefix.", "quantifier": "all types, all strings", "why_tests_cant": "All triples of strings.", "anchors": ["src/utils.rs:30-49"]}
{"id": "C57", "title": "No arithmetic overflows", "statement": "On every string of at most isize::MAX bytes, the validators, comparisons, hash, accessors, iterator steps (in every iterator state) and Extensions::get have the same outcome whether usize and u8 arithmetic is unbounded, overflow-checked (debug builds) or wrapping (release builds): debug and release builds agree.", "quantifier": "all byte strings, all iterator states, every usize::MAX of at least 8", "why_tests_cant": "Overflow would only show on inputs near the size of the address space.", "anchors": ["src/grammar.rs:1079-1097", "src/utils.rs:6-49", "src/normal/mod.rs:33-235", "src/normal/extension.rs:214-300", "src/normal/variant.rs:132-156"]}
{"id": "C58", "title": "Linear running time", "statement": "Construction and the typed views of a LangTag, comparison, hashing, every accessor, Extensions::get, and any sequence of calls on any of the iterators (calls and bytes together) take a number of loop iterations that is linear in the length of the text, with the constants given; so no input makes them quadratic. For the iterator over extensions this holds of every value that can be constructed by validation.", "quantifier": "all byte strings, all sequences of iterator calls", "why_tests_cant": "A bound for every length and every content; a worst case need not be in any test.", "anchors": ["src/grammar.rs:1079-1097", "src/utils.rs:10-49", "src/grandfathered.rs:133-146", "src/normal/mod.rs:33-235", "src/normal/extension.rs:180-300", "src/normal/variant.rs:132-156", "src/lib.rs:87-177"]}
{"id": "C59", "title": "The source text runs as the model says", "statement": "The text of the fourteen Rust files, read by a parser and run by an interpreter for the subset of Rust they use, gives for each of the 225 functions they define, and for the constructors generated by the newtype macro, exactly the outcome (value, new values of &mut arguments, or panic) that the model gives, on all arguments of the parameter types; no function is left out and the result is unique.", "quantifier": "all functions of the crate, all arguments", "why_tests_cant": "Relates a program text to a model on infinitely many inputs; a test compares finitely many.", "anchors": ["src/lib.rs:1-309", "src/utils.rs:1-49", "src/grandfathered.rs:1-152", "src/private_use.rs:1-6", "src/normal/mod.rs:1-235", "src/normal/extension.rs:1-330", "src/normal/variant.rs:1-157", "src/normal/script.rs:1-47", "src/normal/region.rs:1-50", "src/normal/language/mod.rs:1-91", "src/normal/language/extlang.rs:1-130", "src/normal/language/primary.rs:1-45", "src/grammar.rs:1-1100"]}
{"id": "C60", "title": "Running the text accepts what grammar.abnf derives", "statement": "Running the text of the Rust files, T::new(s) for each of the fifteen newtypes (str or [u8]), Singleton::new and GrandfatheredLangTag::new return Ok of the same value exactly when the text of grammar.abnf derives s from the corresponding rule, and Err holding the argument otherwise.", "quantifier": "all byte strings, all fifteen newtypes", "why_tests_cant": "Two texts, each with infinitely many inputs, are compared on all strings.", "anchors": ["src/grammar.abnf:1-60", "src/grammar.rs:1-1100", "src/lib.rs:20-60", "src/grandfathered.rs:105-150", "src/normal/extension.rs:20-60"]}
{"id": "C61", "title": "Running the text of the accessors", "statement": "Running the text of the accessors of NormalLangTag and LangTag on a normal tag returns the component of the unique decomposition, except that script, region, variants, extensions and private_use panic exactly when the tag ends before that component could start, and private_use starts at the first extension; on the other tags they return nothing.", "quantifier": "all accepted tags", "why_tests_cant": "The outcome, panics included, is given for every tag.", "anchors": ["src/normal/mod.rs:30-235", "src/lib.rs:85-180"]}
{"id": "C62", "title": "Running the text of comparisons and hashes", "statement": "Running the text of eq, cmp, partial_cmp and hash of each newtype: eq tells whether the texts are equal up to ASCII case, cmp and partial_cmp give the lexicographic order of the lowercase texts with end-of-text above every byte, hash feeds exactly the lowercase bytes.", "quantifier": "all pairs of byte strings, all fifteen newtypes", "why_tests_cant": "All pairs of texts.", "anchors": ["src/utils.rs:6-49", "src/lib.rs:30-60"]}
{"id": "C63", "title": "Running the text of iterators and lookups", "statement": "Running the text: any interleaving of next and next_back on Variants::iter gives the subtags of the two ends in turn, then None for ever; the other iterators give their items in order, then None for ever; first, last, get, singleton, primary and extension give the items they name.", "quantifier": "all values of each type, all sequences of calls", "why_tests_cant": "All values and all histories of calls.", "anchors": ["src/normal/variant.rs:60-156", "src/normal/extension.rs:100-300", "src/normal/private_use.rs:20-95", "src/normal/language/mod.rs:20-80", "src/normal/language/extlang.rs:50-125"]}
{"id": "C64", "title": "Running the text of the classification", "statement": "Running the text of kind, is_normal, is_private_use, is_grandfathered, as_normal and as_private_use on an accepted tag agrees with which of the rules langtag, privateuse, irregular and grandfathered of grammar.abnf derives it.", "quantifier": "all accepted tags", "why_tests_cant": "All tags, against the text of the grammar.", "anchors": ["src/lib.rs:87-260", "src/grammar.abnf:1-60"]}
{"id": "C65", "title": "Any automata that decide the grammar", "statement": "src/grammar.rs is not compiled: lib.rs has a macro write the module grammar from grammar.abnf. The fifteen rules that lib.rs exports are those named by the automaton attributes of the fifteen types. Take any functions that answer, for each exported rule, exactly what grammar.abnf derives. Then the thirteen compiled files, run with these as the automata, give on every call the same result or panic as all fourteen files run with grammar.rs. So the constructors accept what the rule of their type derives, and the accessors give what C61 says.", "quantifier": "all families of automata that decide the exported rules, all functions of the crate, all arguments", "why_tests_cant": "Tests run the code of one version of the macro. This is about every correct one.", "anchors": ["src/lib.rs:45-66", "src/grammar.abnf:1-60", "src/lib.rs:68-86", "src/normal/mod.rs:20-60"]}
{"id": "C66", "title": "Maps keyed by tags", "statement": "A search tree that uses only Ord::cmp of its keys, and a hash table that uses only Hash and == (with any hasher, any number of buckets, resized at any times), keyed by values of any of the newtypes, answer every sequence of inserts, removals and lookups as a map from lowercase texts would. Afterwards they hold exactly the entries of that map, one per lowercase text, the tree in strictly increasing order.", "quantifier": "all newtypes, all histories of operations, all keys, values, hashers, table sizes", "why_tests_cant": "Histories are unbounded, and the answers depend on agreement between cmp, == and hash that a test checks for a few keys.", "anchors": ["src/lib.rs:180-204", "src/utils.rs:6-49"]}
{"id": "C67", "title": "Sorting, removing duplicates, searching", "statement": "Sorting by Ord::cmp ends with a sorted permutation. Two sorted lists of the same texts up to case are equal position by position under ==, whatever algorithm sorted them. Vec::dedup on a sorted list leaves exactly one value per text up to case. Binary search in a sorted list finds a value equal under == if there is one, and otherwise the place where inserting keeps the list sorted.", "quantifier": "all newtypes, all lists of values", "why_tests_cant": "Needs cmp to be a total order consistent with == on all inputs; a single bad triple breaks it.", "anchors": ["src/lib.rs:180-204", "src/utils.rs:6-49"]}
{"id": "C68", "title": "One decomposition only", "statement": "A text is the text of at most one language, list of extended languages, list of variants, extension, list of extensions and private use sequence. So what the iterators and accessors find in the text of well-formed components are those components.", "quantifier": "all well-formed components", "why_tests_cant": "A second decomposition could exist for one text among infinitely many.", "anchors": ["src/normal/extension.rs:98-302", "src/normal/variant.rs:49-157", "src/normal/private_use.rs:20-84", "src/normal/language/mod.rs:29-66"]}
{"id": "C69", "title": "Every extension is found by its singleton", "statement": "For every list of extensions and every extension in it, get(its singleton) returns that extension. (False of lists that repeat a singleton with other subtags, which RFC 5646 2.2.6 forbids but the types accept.)", "quantifier": "all lists of extensions", "why_tests_cant": "The lists are unbounded; tests use distinct singletons.", "anchors": ["src/normal/extension.rs:209-244", "src/lib.rs:114-120"]}
{"id": "C70", "title": "What the documentation says of languages", "statement": "LangTag::language() is Some exactly on normal tags and regular grandfathered tags, None exactly on private use and irregular grandfathered tags. The primary language is the first subtag of the tag. Extended languages are present only when the primary language has 2 or 3 letters, and are then a valid LanguageExtension; with 4 or more letters the language is its primary subtag.", "quantifier": "all accepted tags", "why_tests_cant": "A statement on every tag; the tests read the language of a few.", "anchors": ["src/lib.rs:83-96", "src/normal/language/mod.rs:29-57", "src/grandfathered.rs:72-89"]}
{"id": "C71", "title": "Every function of the text ends, without overflow", "statement": "The text of each function of the fourteen files, run on any arguments of its parameter types, valid tags or not and iterators in any state, gives a value or panics: it does not loop, does not get stuck, and no usize or u8 addition or subtraction overflows. This holds for every usize::MAX of at least 64 that is at least the indices in the arguments and four more than the lengths of the texts in them, and the result does not depend on it. (find_list_end: if the closure it is given does.)", "quantifier": "all functions of the crate, all arguments, all sizes of usize with room for the arguments", "why_tests_cant": "A test cannot try all inputs, nor all machines; overflow and endless loops show on some only.", "anchors": ["src/normal/mod.rs:33-235", "src/normal/extension.rs:214-300", "src/normal/variant.rs:132-156", "src/utils.rs:1-49", "src/grammar.rs:1079-1097", "src/lib.rs:87-300"]}
{"id": "C72", "title": "The patched text has the accessors the documentation asks for", "statement": "Change two places of the text of src/normal/mod.rs (private_use_offset starts from extensions_range instead of variants_range; find_list_end returns its offset when that is past the end) and run the changed text. On every normal tag language, script, region, variants, extensions, private_use and private_use_subtags give the components, and no accessor of LangTag panics on any accepted tag. Every function that gave a value before gives the same value, except those on private use; every function that calls neither of the two runs alike, step for step.", "quantifier": "all normal tags, all accepted tags, all functions of the crate, all sizes of usize with room for the arguments", "why_tests_cant": "That a patch repairs every tag, and breaks nothing else on any input, is a statement on all inputs of all functions.", "anchors": ["src/normal/mod.rs:33-235", "src/lib.rs:83-131", "src/normal/extension.rs:214-300"]}
{"id": "C73", "title": "What any program can do through the public functions", "statement": "Take any program that uses the crate: it has strings, bytes and characters, calls public functions with arguments of their declared types, in any order, and uses the results, the parts of enums and errors, and what &mut arguments have become. Then the tags it can get hold of are exactly the texts derived from the grammar rule of their type, plus PrimaryLanguage values of four to eight letters and PrivateUse values that are the extensions of a tag. No call panics except the six accessors script, region, variants, extensions, private_use and private_use_subtags, on exactly the normal tags that end before what they look for; every other call returns. Every string handed out is valid UTF-8. After the patch of C72 no call panics, and every PrivateUse is one.", "quantifier": "all sequences of calls of all public functions, all arguments of the declared types", "why_tests_cant": "A test runs one sequence of calls; this is about every sequence, of any length, on every input.", "anchors": ["src/lib.rs:67-263", "src/grandfathered.rs:1-152", "src/private_use.rs:1-6", "src/normal/mod.rs:1-235", "src/normal/extension.rs:1-343", "src/normal/variant.rs:1-157", "src/normal/language/mod.rs:1-91"]}
{"id": "C74", "title": "Every call takes a linear number of steps of the source text", "statement": "Count the steps of running the text of the files: evaluations of expressions and calls, and the length of the text for library functions that look at all of it. Then every function, on every input of its declared type, whether it returns or panics, takes at most a fixed number of steps plus a fixed number per byte of the longest text among its arguments; reading a text as a tag or as any component takes at most 100 steps plus 80 per byte. Each call of next or next_back of an iterator that a program can have takes a number of steps in proportion to the item it gives, whatever the length of the text it runs over, so that a whole iteration is linear too. Counting changes no result.", "quantifier": "all functions of the crate, all inputs of the declared types, all sizes of usize with room for the arguments, all sequences of calls of iterators", "why_tests_cant": "A measurement gives times for some inputs; a bound for all lengths, with the worst case among all texts of a length, needs a proof, and hostile inputs are looked for where tests do not measure.", "anchors": ["src/grammar.rs:1-2520", "src/utils.rs:1-49", "src/lib.rs:67-263", "src/normal/mod.rs:33-235", "src/normal/extension.rs:131-343", "src/normal/variant.rs:100-157", "src/grandfathered.rs:60-152"]}
{"id": "C75", "title": "Automata written from the text of grammar.abnf", "statement": "Take the generator that reads an ABNF text, expands each rule into a regular expression and reads words by partial derivatives, and calls the automaton of the rule a-b AB. For every text in which all rules that are referred to exist and none refers to itself, directly or through others, each automaton it writes accepts exactly what its rule derives. grammar.abnf is such a text and the names fit those in lib.rs; so the thirteen compiled files together with grammar.abnf, without grammar.rs, give the same result or panic on every call as all fourteen files. With any other such text in place of grammar.abnf, the constructors accept exactly what the rule of their type derives from that text.", "quantifier": "all ABNF texts without recursion, all words; all functions of the crate and all arguments", "why_tests_cant": "A test has one grammar file and some words. This is about every grammar file, and about all words of it.", "anchors": ["src/lib.rs:45-66", "src/grammar.abnf:1-84", "src/lib.rs:68-86"]}
{"id": "C76", "title": "grammar.rs has no dead arm and, but for one automaton, no state too many", "statement": "In each of the fifteen automata of grammar.rs, each character of each pattern of each arm of push takes that arm on the way of some accepted text, and each state listed in is_accepting is reached by an accepted text. No state has two arms and no character two patterns in a state, so the order of arms does not matter. Fourteen of the automata have the least number of states that any machine reading that language byte by byte can have. LanguageTag has 183 states where 136 are needed and enough: the rule for the regular grandfathered tags adds no text to the language, as these tags are normal tags too.", "quantifier": "all automata, states, arms and characters of grammar.rs; all machines whatsoever that read the same languages", "why_tests_cant": "That an arm is dead cannot be seen by testing, only suspected; that no smaller machine exists is about all machines.", "anchors": ["src/grammar.rs:1-2520", "src/grammar.abnf:1-84"]}
{"id": "C77", "title": "The repository's tests, the example of its documentation and langtag!, as text", "statement": "Read as text and run on the source text, each of the twenty functions that #[test] marks in tests/*.rs ends without a panic, whatever str_newtype generates for the comparison of a tag with a string, if that holds of equal texts; the same on the text patched as in C72. The example in the documentation of lib.rs passes if that comparison says that fr-FR equals Fr-fr, and fails otherwise. For every string literal s, langtag!(s) is the tag s if s is a Language-Tag of grammar.abnf, and panics (in a constant: does not compile) otherwise. More fuel or a larger machine never changes what running a program answers.", "quantifier": "all implementations of the comparison with str; all string literals given to langtag!; all machines; all programs, for the fuel", "why_tests_cant": "These are the tests; that they pass for every comparison that str_newtype may generate, and what langtag! does on each of all literals, they do not say.", "anchors": ["tests/lib.rs:1-397", "tests/extension.rs", "tests/langtag.rs", "tests/language.rs", "tests/privateuse.rs", "tests/variant.rs", "src/lib.rs:10-19", "src/lib.rs:206-215"]}
{"id": "C78", "title": "Every branch of the source outside grammar.rs is used, except one, which is dead", "statement": "Take the 150 functions of the source outside grammar.rs and their 311 branches: the body of each function, both sides of each if (also the one not written), the arms of each match, the bodies of loops and closures, the right side of && and ||. For each of them but one there is a function that the crate offers and arguments that a client can get hold of, such that the call returns on the source and panics on the source with that branch replaced by a panic. The one left is the else of find_segment_start (end = 0): with it replaced by a panic, every function offered gives the same result on all arguments a client can get hold of.", "quantifier": "all branches of the source outside grammar.rs; for the dead branch all functions offered and all arguments that any sequence of calls leads to (grammar.rs: C76)", "why_tests_cant": "A coverage report shows what a set of tests did not reach; it cannot show that no call at all reaches it.", "anchors": ["src/normal/mod.rs:216-235", "src/normal/mod.rs:128-151", "src/normal/variant.rs:146-162", "src/lib.rs", "src/utils.rs", "src/grandfathered.rs"]}
{"id": "C79", "title": "What every small edit of the source outside grammar.rs does to the callers", "statement": "Take the 150 functions of the source outside grammar.rs and their 403 edits: the condition of an if negated, a ! removed, an operator replaced by its neighbour (&& and ||, == and !=, < and <=, > and >=, + and -), a number or a bound of a pattern one higher or lower, a byte (also one of a text) replaced by the next, true and false exchanged, another Ordering, a statement that is not a let removed. For 386 of them there is a function that the crate offers and arguments that a client can get hold of, such that the call returns on the source, and on the edited source returns something else or panics. For eight more, the call has no result on the edited source with any amount of fuel: it subtracts below zero or never ends. For the nine others the edited source gives the same result for every function offered, on all arguments a client can get hold of.", "quantifier": "all 403 edits; for the nine without effect, all functions offered and all arguments that any sequence of calls leads to; for the eight without result, all amounts of fuel", "why_tests_cant": "Mutation testing shows which edits a set of tests misses; it cannot show that an edit it misses is one that no call could ever show.", "anchors": ["src/normal/mod.rs:216-235", "src/normal/variant.rs:146-162", "src/normal/extension.rs:214-239", "src/normal/extension.rs:59-72", "src/utils.rs:1-60", "src/lib.rs", "src/grandfathered.rs"]}
{"id": "C80", "title": "A function may be replaced by one with the same results", "statement": "For all programs P and Q of the Rust subset that differ in the body of one function: if every call of that function that answers in P answers the same in Q, with at most k more fuel, then every call of any function that answers in P answers the same in Q, with at most k more fuel. For the source: if Q is the source with one function, also one of grammar.rs, rewritten so that its calls give what they gave, then every function the crate offers gives the same result in Q, on all arguments that a client can get hold of.", "quantifier": "all programs, all functions in them, all machines, all values as arguments; for the source all functions offered and all arguments that any sequence of calls leads to", "why_tests_cant": "A test checks one rewriting on some inputs; this holds for all rewritings of all functions.", "anchors": ["src/lib.rs", "src/utils.rs", "src/grammar.rs", "src/normal/extension.rs:59-72"]}
