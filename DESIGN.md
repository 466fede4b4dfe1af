# Formal model of `langtag` in Rocq (Coq 8.16.1)

The properties are in `properties.jsonl`, their status and theorems in `MANIFEST.json`. This file says what is
modelled, what is trusted, and how each property is stated and proved.

## 1. Trusted base

* **Coq's kernel** (8.16.1, with its `vm_compute` reduction machine), and `coqc` itself to read the files.
* **Axioms: none.** `Print Assumptions` stands after every theorem of the `Props*.v` files and answers
  `Closed under the global context` for each of them, without exception. No file declares an axiom, parameter,
  section-less variable or hypothesis; none disables a kernel check. (The audit by `coqchk` lists seven constants
  `Coq.ssr.ssrunder.*`: module-type fields of the standard library loaded with `ssreflect`-aware tactics; no theorem
  depends on them.)
* **The correspondence model / Rust.** The Rust code was never compiled or run. The model was transcribed by hand (the
  automata by a script); that it is what the Rust text does is then *proved* (C59), from:
  * the copy of the 14 Rust files in `RustText.v`, made byte for byte by `tools/gen_source.py`;
  * the lexer and parser of `RustSyntax.v` and the interpreter of `RustEval.v`, which give the meaning of the subset of
    Rust that the files use. **These two files are what a reader must believe about Rust**; section 6 describes them;
  * the meaning, in `RustEval.v`, of the few library functions the text calls (`len`, slicing, `is_ascii_uppercase`,
    `chars`, `find`, `Hasher`, `Formatter`...) and of the two external crates (section 3).

  Further evidence: every definition of the model cites its lines; the repository's own tests, read as text and run by
  the interpreter, pass (C77), and `RepoTests.v` evaluates their assertions on the model; the seeded-bug log (`seeded/LOG.jsonl`) records which theorems notice which wrong programs.
* **The specification files** `Spec.v`, `Abnf.v`, `AbnfText.v`, `Observe.v`: what the English words of the properties
  mean. They are short and import nothing of the proofs. `AbnfText.v` is a byte-for-byte copy of `src/grammar.abnf`
  made by `tools/gen_abnf.py`.

## 2. What is modelled

| code | model file | how |
|---|---|---|
| `u8`, `str` slices, indexing, panics | `Base.v` | `byte`, `list byte`; `outcome A := Ret a \| Panic \| OutOfFuel`; slicing checks bounds *and* char boundaries |
| `src/grammar.rs` (15 automata, `push`, `is_accepting`, `validate_bytes`) | `GrammarRs.v` (generated by `tools/gen_grammar.py`, one Gallina branch per Rust `match` arm), `Validate.v` | state `N`, char `N`; `push` returns `None` for `return false` |
| `src/utils.rs` | `Utils.v` | loops with indices, as written |
| `src/grandfathered.rs` | `Grandfathered.v` | 26-constructor inductive |
| `src/normal/**` scans, accessors, iterators, `Singleton` | `Normal.v` | scans with explicit indices, fuel and panics; iterators as state records with `next`, `next_back` |
| `src/lib.rs`: `LangTag`, `TypedLangTag`, `Kind` | `LangTag.v` | as written |
| the `#[automaton(..)]` attribute and the hand-written `PartialEq`/`PartialOrd`/`Ord`/`Hash` of each of the 15 newtypes | `Newtypes.v` | one branch per type, each citing its lines |
| derived `Eq`/`Ord`/`Hash` of `Kind`, `GrandfatheredLangTag`, `Singleton`; `Display`; `langtag!` | `Derived.v` | discriminants in declaration order |
| `usize` and `u8` overflow | `Checked.v` | the functions again, with additions and subtractions that panic (debug) or wrap (release) on overflow; proved equal to the model above in `NoOverflow.v` |
| users of `Ord`, `Eq` and `Hash`: ordered maps, hash maps, sorting | `Containers.v` | not code of the repository; they call `cmp_of`, `eq_of`, `hash_of` of `Newtypes.v` |
| running time | `Cost.v` | the functions again, counting the iterations of their loops (a bounded number of steps lies between two); proved to have the same outcomes in `Linear.v` |

Every `fn` and `impl` of `/repo/src` is in one of these files, but for the following.

## 3. What is not modelled

* **`static_automata`** (external crate). `lib.rs` has its macro generate the automata from `grammar.abnf` at compile
  time; `src/grammar.rs` is the checked-in output of such a run and is what `GrammarRs.v` transcribes. C52 proves that
  these automata accept exactly what the text of `grammar.abnf` derives. C65 makes the generator a parameter: the other
  thirteen files give the same results with *any* automata that decide the exported rules of `grammar.abnf`. What is
  left to believe is that the macro writes such automata, and names that of the rule `a-b` `AB`. C75 gives a generator that
  does so, for every ABNF text without recursion. `decode_utf8_char` is taken to be a standard decoder; C06 shows that
  acceptance is the same with any decoder that decodes ASCII bytes as themselves and no other byte as an ASCII character.
* **`str_newtype`** (external crate): `X::new` is taken to be "`Ok` of the same bytes iff `validate_bytes`, else `Err` of
  the same bytes"; `new_unchecked`, `as_bytes`, `as_str`, `Deref` are the identity on bytes. The generated `*Buf` types,
  comparisons with `str` and `[u8]`, `Borrow`, and `serde` implementations are not modelled.
* **`thiserror`** `Display` of the error types, and derived `Debug`, which are formatting only.
* **Memory safety of `unsafe`** itself (transmutes, lifetimes). What is treated is the documented precondition of
  `new_unchecked`: the value satisfies the grammar of its type (C32).
* **Allocation, threads, I/O**: the crate has none beyond `String`s in error values.

Simplifications, each also said at the definition: a newtype value is its bytes; a `char` is its code point, an `N`;
a loop takes fuel (C37 proves that it never runs out, on any byte string); a hasher is an arbitrary state machine with
`write_u8` and `write_isize`; closures given to `find_list_end` return an `outcome`.

## 4. Findings: properties that are false of the code

Each has a `_refuted` theorem with a witness, an exact characterisation of where it fails, and what does hold.

| | |
|---|---|
| C10–C13, C16 | `find_list_end` slices one past the end of the tag: `script()` panics iff the tag is a language only (`fr`), `region()` iff language[-script], `variants()` and `private_use()` iff language[-script][-region], `extensions()` iff there is no extension and no private use |
| C14, C15, C17 | `private_use()` starts after the variants, so that with extensions it returns them too |
| C08 | the nine regular grandfathered tags are `is_normal` and `is_grandfathered` at once |
| C20 | a proper prefix sorts after its extensions (`fr` after `fr-FR`) |
| C22 | the bytes hashed are not prefix-free, except for `Script`, `Region`, `ExtendedLangTag` |
| C28 | `Extensions::get` and `Singleton` compare bytes, not letters up to case |
| C32 | `Language::primary()` builds an invalid `PrimaryLanguage` from languages of 4–8 letters; `private_use()` an invalid `PrivateUse` when there are extensions |
| C34 | `GrandfatheredLangTag::language` and `LangTag::language` disagree on `no-bok`, `no-nyn`, `zh-min`, `zh-min-nan` |
| C69 | a repeated singleton is accepted, and `get` gives only the first of its extensions |
| C45 | the derived order of `GrandfatheredLangTag` is not the order of the texts |

C53 shows, on the model, that two changed lines make C10–C17 true; C72 shows it of the text:

```diff
--- src/normal/mod.rs
@@ private_use_offset @@
-		let variants_end = self.variants_range().end;
+		let variants_end = self.extensions_range().end;
@@ find_list_end @@
 fn find_list_end(string: &str, mut offset: usize, mut f: impl FnMut(usize, &str) -> bool) -> usize {
+	if offset > string.len() {
+		return offset;
+	}
```

## 5. How the properties are stated and proved

The specification (`Spec.v`) uses nothing of the model except `byte` and `list byte`: the ABNF as regular expressions
with an inductive `matches`; a record `tag` of the components of a normal tag, with well-formedness by lengths and
character classes and `tag_text`, the `-`-joined text; ASCII lower-casing, lexicographic order, deques. `Observe.v` has
ways to observe the model: sequences of calls on an iterator, outcomes compared, bytes fed to a hasher.

* **C01, C03, C52** – `RegexEquiv.v`: a checker that explores pairs (automaton state, set of Antimirov partial
  derivatives) and a proof that, if it answers `true`, the automaton accepts exactly what the regular expression
  matches, for strings of any length. The checker is run by computation on the 15 automata. This is a proof by
  reflection, not a bounded test: the soundness theorem quantifies over all strings. For C52, `Abnf.v` defines ABNF
  (syntax, derivation relation, a reader for the concrete syntax of RFC 5234); `AbnfEquiv.v` reads the file, expands the
  rules into regular expressions, proves that expansion preserves derivation, and runs the same checker.
* **C02** – the regular expression of `langtag` inverted into the record `tag` (`Parse.v`); uniqueness through the
  list of subtags.
* **C04, C34, C42, C45** – case analysis over the 26 constructors, lemma on `case_insensitive_eq`.
* **C05** – every state treats both cases of a letter alike (checked per state), then induction on the run.
* **C06** – from C01/C02; decoder independence by induction over the loop, for an arbitrary decoder.
* **C07, C08, C46, C47** – from C01 and C04 (`Kind.v`, `More.v`).
* **C09–C17, C35, C36, C38, C39, C49, C50** – a lemma computing `find_list_end` on a `-`-joined list of subtags
  (`Scan.v`), then each accessor exactly, panics included (`Access.v`, `Parts.v`, `Compose.v`).
* **C18–C22, C56** – inductions over byte lists (`Case.v`, `Order.v`, `Whole.v`); the hasher is arbitrary.
* **C23–C31, C33, C40, C48, C51** – invariants relating the offsets of an iterator to the subtags left (`Iter.v`);
  histories by induction on the list of calls.
* **C32, C43, C44** – per construction (`Values.v`).
* **C37, C57** – `Terminate.v`, `NoOverflow.v`, for arbitrary byte strings.
* **C58** – `Linear.v`: inductions on the loops; for the iterators a potential (bytes not yet passed).
* **C53** – `Repair.v`: accessors over a scanner parameter; with the original scanner they are the code's.
* **C59** – for each function a lemma `.._src` that running its text for enough steps gives the model's outcome
  (`RustRefine.v` to `RustLib.v`), by symbolic execution of the interpreter and inductions for the loops; the 15
  automata by reading their `match` arms as tables and comparing tables. `RustSays.v` collects them and checks that no
  function of the text is left out.
* **C60–C64** – C59 with C52, C09–C16, C18–C21, C23–C31, C07 and C08: statements that mention only the text, its
  interpreter and the specification.
* **C65** – `RustOracle.v`: two interpreters, with two programs that resolve the names occurring in them alike and two
  answers for `X::new` that agree, simulate each other; by induction on fuel, for every expression and every library
  function. `RustGenerated.v` applies it thrice: all files with themselves (more fuel gives the same result), the
  thirteen files with an oracle against the fourteen with `grammar.rs`, and conversely. The simulation is a section over the
  relation between results (`sim_machines`: with enough fuel on either side; `same_machines`: with equal fuel).
* **C66, C67** – `Containers.v` defines a search tree, a hash table, sorting and searching that know their keys only
  through `cmp`, `==` and `hash`; `Keyed.v` relates them to a map on lowercase texts, by induction on the history.
* **C71** – `RustSays.v` and `Terminate.v`.
* **C72** – `RustMended.v` makes the changed text by search and replace and reads it. Functions that call neither of the
  two run alike by the simulation of `RustOracle.v`, here with equal fuel. The others are run as for C59
  (`RustMendedAccess.v`), against the model with the repaired scanner of C53.
* **C73** – `RustClient.v` says what is offered (from the text: names, declared types of the parameters, `pub`) and what
  can be reached by calls of it, as an inductive predicate. `RustClientSound.v` gives an invariant of values: a tag is
  accepted by its type, an iterator is at a place of a valid text (`at_segs`, `at_exts`, `at_variants` of `Iter.v`), a
  string is UTF-8. Each of the 102 cases of `says` keeps it. The other way, each text is reached by a call shown.
* **C74** – `RustCount.v` is the interpreter again with a counter passed along, and a proof that it gives the same results.
  For each function a lemma `.._steps` bounds the counter, by the same symbolic execution as for C59, with inductions that
  carry a bound (`RustSteps.v`, `RustStepsNormal.v`, `RustStepsLib.v`, collected in `RustStepsSays.v`). For the iterators
  (`RustStepsIter.v`) the bound is in terms of the item; `ExtensionsIter` needs that no subtag is longer than eight.
* **C75** – `AbnfMachine.v`: the generator, and by induction on the layers of the rules that its expansion ends; the rest is
  `expand_derives` of `AbnfEquiv.v` and the derivatives of `RegexEquiv.v`. With C65 this gives the crate without `grammar.rs`.
* **C76** – `GrammarArms.v`: for each state a text that enters it and one that leads on to acceptance, found by a search and
  checked; for the number of states, texts of which each two are told apart by some continuation (Myhill and Nerode).
* **C77** – `RustTests.v`: the interpreter of `RustEval.v` with what tests use besides (`assert!` and the like, `vec!`,
  `panic!`, `?`, `is_err`, `AsRef::as_ref`, `==` on tags), the comparison with `str` a parameter `K`; `langtag!` is read from
  its `macro_rules!` as a function. `RustFuel.v`: every construct answers the same with more fuel, for any program; so one
  run, with `LangTag::new` answered by the model (C59), is enough for all machines.
* **C78** – `RustBranches.v` replaces one branch after the other by `None.unwrap()`; a script of calls that a client can make
  gives a pool of values (each `reached` by the rules of C73), and a table names for each branch a call on them that returns
  on the source and panics without the branch. `RustUnused.v`: for the one branch without such a call, the programs with and
  without it are step by step the same outside of `next_back` and `last`, which are run once more.
* **C79** – `RustEdits.v` lists the edits and names for each a call that tells the edited program from the source, as in C78;
  `differ` compares results. `RustSilent.v`: the eight edits with which the call gives no result, by running it with `200 + k`
  fuel, `k` a variable, and for loops by induction on the fuel. `RustSame.v`: eight that show nowhere; outside the edited
  function and its callers the programs are step by step the same (`agree`, as in C78), and the edited functions are run on
  what a client can have: `Variants` whose items begin after a dash or at 0, `Extensions` whose last item is long enough.
  The ninth, in `TryFrom<char>`, is used by too many: `RustSwap.v` shows that two programs that differ in one function, which
  gives the same results in both with some more fuel, do so everywhere; `RustWide.v` runs the two functions on all values. For
  all this the interpreter knows `-` on bytes and `!=`, `>`, `<=`, `>=` on `u32`, which the source does not use.
* **C80** – `swap_run` of `RustSwap.v`, by induction on the fuel; with C59 and `call_sound` of C73 for the source.
* **C68–C70** – from the lists of subtags (`Parse.v`) and C09, C23–C31, C47.
* **C54, C55** – `Whole.v`: compositions of the above over a whole tag.

The `Props*.v` files hold the theorems, their `Print Assumptions`, and beside each an `Example` with concrete values
that meet its hypotheses. `Samples.v` has the values used. `tools/manifest.py` writes `MANIFEST.json`.

## 6. Running the source text

`RustText.v` holds the text of `src/**/*.rs`. `RustSyntax.v` lexes and parses it, whole files, with no preprocessing but
for skipping what has no meaning at run time: attributes (kept on structs), doc comments, `use`, `mod`, generics, `where`,
lifetimes. `load files` (`RustProgram.v`) is the resulting program: 225 functions, 3 constants, the structs, enums and
aliases. If some construct could not be read, `load` would give `None` and `C59_every_function` could not be proved.

`RustEval.v` is an interpreter by fuel, `eval` and `call`, of the usual big-step kind: an environment of variables, and
results `Done`, `Returned`, `Broke`; a stuck program gives `OutOfFuel`, as too little fuel does, so that every theorem
`runs f args r` (the text, for all big enough fuels, gives `r`, which is a value or `Panic`) says that neither happens.
Decisions to believe:

* references, `&`, `*`, `unsafe` and lifetimes are transparent; a `&mut` argument is passed by value and its final value
  written back to the variable it was taken from; moves are copies. The text never holds two mutable references.
* integers: `usize` is a `nat` up to `M`, a parameter of the interpreter for `usize::MAX`; `u8` is `byte`, `u32` and
  `char` are `N`. What a build does on overflow (panic or wrap) is not fixed: a `usize` or `u8` sum that is too big and a
  `usize` difference below zero give no result. `runs` asks for the result on every machine with room for the arguments
  (`rooms`: indices up to `M`, texts of up to `M - 4` bytes), so it says that nothing overflows (C71).
* `s[i]`, `&s[a..b]` panic out of bounds, and for `str` off a char boundary (`slice` of `Base.v`).
* a `str` is its bytes in UTF-8. `chars().next()` decodes, `split_once` of an ASCII character works on bytes.
* a `Hasher` and a `Formatter` (default format) are the bytes written so far.
* steps (C74): one for each evaluation of an expression and for each call; `split_once`, `to_owned` and `Display::fmt` of a
  `str` cost its length besides, every other library function nothing more. Matching a pattern is free: patterns are part
  of the program, so their size is bounded. (Evaluating `match` in `grammar.rs` is thus two steps, as after compilation.)
* names: all names of the crate are visible everywhere except that the types of `grammar.rs` are in the module `grammar`.
  Type inference and trait resolution, where they decide what is run, are the small rules `infer_default`,
  `infer_trait` and `method_path`.
* derived `Default` of the iterators gives empty and zero fields; `macro_rules!` items are skipped.
* `X::new` and `X::new_unchecked` of the newtypes are those of section 3; `X::new` runs the text of `validate_bytes` of
  the automaton that the attribute on the struct names.

## 7. Wrong programs

`seeded/LOG.jsonl` has one line per wrong program tried on a scratch copy: the definition edited, the edit, the claims it
was meant to break, the theorems whose proofs no longer go through (`theorems_failed`), the claims of which a sampled
instance computes to false (`claims_false_on_samples`; these are false, not merely unproved), and what was tightened.
`seeded/mutate.py` and `seeded/inst.py` are the drivers, `seeded/instances.txt` the samples. C57, C58 and
`C53_only_change` compare two versions of the same functions and fail whenever one of them is edited; they are not counted
as having noticed anything.
