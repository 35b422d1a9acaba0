# Formal model of WebOfTrust/cesride in Rocq (Coq 8.16.1)

## Layout

* `properties.jsonl`      the English properties (C01 ...), generated by `tools/mkprops.py`.
* `rocq/theories/`
  * model (function by function, each definition cites file and lines): `Base` (outcomes, build profile, bytes, checked
    arithmetic, str slicing), `Utf8`, `B64`, `Util`, `MatterTables`, `Matter`, `StdStr` (std string functions),
    `CounterTables`, `Counter`, `IndexerTables`, `Indexer`, `Crypto` (oracles), `Prims` (Verfer, Cigar, Siger, Diger, Seqner,
    Dater, Bexter, Number), `Signer` (Signer, Salter), `Data` (Value), `Json` (serde_json reader), `Common` (versify,
    deversify, sniff, sizeify), `Saider`, `Tholder`, `Sadder` (Sadder, Serder, Creder, with all accessors), `Pretty`,
    `Pather`, `Prefixer`
  * `Spec.v`, `*Defs.v`   the vocabulary of the statements, independent of the model's helpers
  * `*Facts*.v`           lemmas
  * `*Thms.v`             the property lemmas `Cnn_name_pf` and their instances `Cnn_name_ex_pf`
  * `Prop*.v`             generated by `tools/mkprop.py`: each property theorem by name with `Proof. exact ..._pf. Qed.` and
                          `Print Assumptions`; examples beside them
* `MANIFEST.json`         property -> theorem names and status (`tools/mkmanifest.py`, `tools/status.json`)
* `seeded/specs/*.py`, `seeded/LOG.jsonl`, `tools/mutate.py`   wrong programs (see below)

## How Rust is modelled

| Rust | model |
|---|---|
| `Result<T>` / panic | `outcome T := Ok t \| Err e \| Panic`; every slice, index, `unwrap`, `copy_from_slice`, checked arithmetic that can panic yields `Panic` |
| `u8`, `&[u8]`, `Vec<u8>` | `N`, `list N` with `bytes_ok` (all < 256) as a hypothesis on inputs where it matters |
| `&str`, `String` | the list of its UTF-8 bytes; slicing panics off the end or off a char boundary; `str_ok` = valid UTF-8. "First character" is first byte wherever only ASCII is compared |
| `u32`, `usize`, `i32` arithmetic | `N`/`Z` with the wrap explicit; `Class Profile` selects overflow checks (debug) or wrap (release); theorems are proved for both. `usize` has 64 bits |
| lengths | `N.of_nat (length l)`; `as u32` casts are `mod 2^32` |
| tables (`match` on strings) | functions by string comparison, same order as the source |
| `IndexMap` | association list in insertion order; insert of an existing key keeps its place |
| f64 values | the text serde_json prints for them; reading a numeral is the oracle `Floats`, universally quantified |
| f32 logarithm in `u32_to_b64` | exact arithmetic, which agrees with it wherever the number fits the width or is below 2^24 (see the comment of `skip_digits`); no theorem speaks of it elsewhere, except at exact powers of 64 |
| mutation through `&mut self` | the new state is returned |
| loops | structural recursion, or fuel taken from the length of the input (proved sufficient where it occurs in a statement) |
| hashing, signing, key generation, argon2 | class `Crypto` of functions, universally quantified; the properties needed (length of a digest, sign/verify correctness, absence of a collision) are explicit hypotheses of the theorems, each with an instance (`toy_crypto`) |
| rng, clock | explicit arguments |

## Plan and method per property

| id | modelled | statement and proof |
|---|---|---|
| C01-C04, C08, C12, C13 | `Matter::new`, infil, exfil, binfil, bexfil | closed form of both encodings (base-64/256 numerals); decoders invert it; composability by lengths in multiples of 24 bits; streams by induction |
| C05, C07 | same | converse: what is accepted is exactly the encoding of what is returned |
| C06, C09, C11 | same | exact characterisation (iff) of re-encoding, panics and code selection; the naive claims refuted by witness |
| C10 | same | raw size rules over all tables |
| C14-C18 | `Counter`, `util` | same machinery; soft parts as big-endian base-64 numerals |
| C19-C25 | `Indexer` | same machinery, index/ondex rules by case on the code; the codes that overflow characterised |
| C26, C27 | all typed constructors and the accessors they share | success iff the underlying Matter call succeeds and the code is in the set |
| C28-C33 | Number, Seqner, Dater, Bexter | big-endian numerals, hexadecimal numerals, base64 laws |
| C34-C37 | Pather | split/join lists, components as a specification; resolution as a relation; refuted claims for components with '-' and numeric keys |
| C38-C44 | Tholder with `Rational32` | specification in exact rationals (QArith); i32 arithmetic with overflow; conditions under which the two agree (`exact`, `safe`) proved, and refuted without them |
| C45-C47, C60 | data.rs, serde_json reader | printer/reader by induction over values, converse for texts that were read; white space (`laid`) |
| C48-C50 | common.rs | version strings as `ident ++ 10 hex digits`; the sniffing regex as first match |
| C51-C53 | Saider, Diger | exact success conditions of saidify, verify iff the digest of the placeholder text is the SAID; binding: two verified values hash the same text or are equal up to the SAID |
| C54 | Prefixer | derive/verify exactly characterised for all fifteen codes; binding |
| C64, C65 | whole streams and signed events | induction over the items of a stream; composition of the constructors', signers', accessors' and thresholds' theorems, and its converse |
| C66 | crash conditions of the constructors built on Matter, of Saider, Serder/Creder, Tholder, Pather | case analysis of each constructor down to the exact crash condition of the parser and of the code/raw constructor |
| C67 | `Wasm.v`: the 128 bit numbers of the bindings | halves are unique; bitwise or of two numbers below 2^64 is below 2^64 |
| C68 | `Wasm.v`: every binding that takes a value as text | unfolding on top of C46, C47; thresholds by C44 and the JSON round trip |
| C69 | `Wasm.v`: saidify and ked | the result of saidify and the stored value of a Serder are always objects, by induction over how a Serder is made |
| C70 | `Wasm.v`: arrays, lists of signers, names of codes | induction over the positions set; finite checks of the two name tables |
| C71 | serde_json reader (`Json.v`) against the JSON grammar (`GrammarDefs.v`, independent of the reader) | soundness by induction on the reader's fuel, completeness by induction on derivations; repeated keys by induction from the end |
| C72 | `String::from_utf8` checks (`Utf8.v`) against the code-point definition of UTF-8 (`TextDefs.v`); byte entry points; JSON reader and printer; Serder/Creder loading | case analysis on the lead byte; a string body is walked character by character; documents by induction on the grammar with the surrounding text as context |
| C73 | Prefixer, Serder and Saider composed on inception events with a digest prefix in 'i' and 'd' | the blanked event is the same before and after; JSON lengths do not depend on equally long texts; C54/C55/C52 |
| C74 | `qb64`, `qb2`, `full_size` of Matter and Indexer objects with arbitrary fields (setters) | closed forms of infil/binfil for any raw length; the readers on what they give |
| C75 | `Value::to_json` against the JSON grammar | induction on the grammar: every text is at least as long as the printed one, equal up to letter case if as long; reader/grammar equivalence (C71) |
| C76 | the accessors and checks on arbitrary fields; the `Default` implementations | closed forms by cases on the code and the length; padded Base64 (`b64_padded`) by induction in steps of three bytes |
| C77 | histories of events: lists of loaded, verified, chained Serders (`LogDefs.v`), in terms of C50-C55, C61, C62, C73, C75 | induction over the log: equal identifiers give equal digested texts or a collision, injectivity of compact JSON gives equal content, whose "p" gives the predecessor's identifier |
| C78 | the digest algorithms SHA-2, SHA-3, BLAKE2 and BLAKE3 from their standards (`Hash.v`), as an instance of the digest part of the oracle class | induction over blocks and chunks for the sizes (this discharges the digest contract that other theorems assume); test vectors by computation |
| C79 | the f64 arithmetic, reader (serde_json without `float_roundtrip`) and printer (ryu) (`Float.v`), as an instance of the oracle for numerals | a magnitude is an integer multiple of 2^-1074; rounding is proved to be nearest-even; few digits make the reader round once; for all numerals the errors of its roundings are added up in Q (`FloatErr.v`); the printer's numeral rounds to its number; it is shortest, since the multiples of a power of ten next to the number are tried and rounding is monotone (`FloatShort.v`); counterexamples by computation |
| C80 | the six `TryFrom<&Value>` (`Convert.v`) | case analysis; the value of a printed float is recovered by C79's printing theorem, truncation by division with remainder |
| C55, C61, C62, C63 | Sadder, Serder, Creder | load/build/accessors/pretty exactly characterised; end-to-end flow |
| C56-C59 | Signer, Salter | selection of codes, sign then verify relative to the scheme, paths of derived signers |

Theorems whose name ends in `_refuted` prove the negation of a tempting stronger claim about the code: they are findings.
Nothing in the list is inexpressible; what is *not* modelled is listed below. No theorem is partial.

## Findings (each proved)

* Matter/Counter/Indexer: texts with '=' padding inside the primitive are accepted and cannot be encoded again (C06, C23); some
  non-ASCII or short texts make the parsers panic (C09, C16, C25); sizes of 4 GiB or more are truncated (C11); big indexed codes
  (`0z`-style with ss=6) overflow (C20); `set_index` beyond the code's range is encoded truncated in binary (C24).
* Number and Salter parsed from text may have any code (C27); `num()` panics on more than 16 bytes (C30).
* Tholder: duplicate indices are counted for numeric thresholds (C38); the i32 rationals overflow (C39, C41); `1/2/3` and `1/0`
  are not rejected cleanly (C42); empty weight lists (C42-C44).
* WebAssembly bindings: a U128 is put together without shifting its upper half, so numbers of 2^64 and more become other numbers
  (C67); invalid JSON text crashes (C68); `saidify` and `Serder.ked` always crash on success, because they use `to_string`, which
  is only defined on strings, instead of `to_json` (C69); the secp256r1 codes have no names (C70).
* JSON: floats without '.' and integers above i64::MAX panic on import (C46, C47).
* Loading a Serder does not verify its SAID; failed repopulation leaves a mixed object (C55). A failed load may panic (C50).
* Pather: components with '-', empty or negative ones change the path; "--x" has the empty path; strip removes components that
  are not a prefix, or panics; `starts_with` is textual; numeric keys cannot be addressed by name (C34-C37).
* Prefixer: the usual empty lists for 'n', 'b', 'a' prevent derivation of non-transferable prefixes; keys with trailing
  characters derive but do not verify; a missing 't' panics; parsed prefixers have any code (C54).
* Accessors: keys that are not a list are silently no keys; `fner` reads 'f' as a primitive, not as hexadecimal; missing
  's', 'i', 't', 'a' panic (C62). `pretty` panics when the size cuts a character (C63).
* The identifier of a self-addressing inception event does not verify with `Saider::verify`, only its prefix with `Prefixer::verify` (C73).
* `qb64` of an assembled primitive checks the raw length only modulo 3, so its text swallows following text or is cut; `qb2` checks it
  exactly; lead-byte codes underflow; `full_size` of a variable code overflows; a current-only indexed code with an ondex is encoded but unreadable; `qb2`
  writes only the leading digits of an oversized index or ondex of a dual code, e.g. index 4100 becomes 64 (C74).
* A numeric signing threshold is met by repeating one signature (C65).
* A default threshold shows 1 but is met by no signatures; a default Dater has the text "1AAG" without a date; `bext` of an assembled text can show '=';
  `sn` and `num` panic on raw bytes of another length (C76).
* `Saider::verify` hashes the re-serialised content, signatures cover the raw bytes: with a repeated key "v" one
  content with one identifier has several byte forms (C77). `Prefixer::verify` and `Saider::verify` blank different
  fields, so a self-addressing inception event and the same event with `####...` as its prefix share an identifier (C77).

* Floats: serde_json is used without `float_roundtrip`, so reading rounds twice and an f64 of full precision may change by an ulp when read back: values are not stable under to_json and reading, a SAID may be lost by serialisation, and the document 5e36 loads but does not reload (C79).
* Numbers: `i64::try_from` accepts floats, dropping the fraction and saturating; `f64::try_from` accepts integers, and changes those above 2^53 (C80).

## Wrong programs

`tools/mutate.py SPEC` edits the model in a scratch copy, proves the NEGATION of the listed theorems' statements there (so the
theorem is false of the edited program, not merely its script broken), and logs the edit. All logged edits are refuted.

## Validation of the model against the repository's own tests

`tools/mkconform.py` parses the `#[cfg(test)]` modules of `/repo/src` (`tools/rustparse.py`) and translates them to Coq:
`Conform{Matter,Indexer,Codes,Prims,Said,Trees}.v` hold 689 cases (one per rstest case) of 176 of the 197 test functions, with
2560 assertions, and each file ends in an `Example` per source file that every case passes in both build profiles. These are
tests of the model, not proofs about it: they show that the model gives the results the repository's authors expect of the code.
Digests are the actual algorithms (`Hash.v`); signatures are a toy MAC. Left out: tests of constants only (6), expected outputs of
argon2id, Ed25519 and ECDSA (salter, signer, prefixer interop vectors), tests built on the `rand_core` API or on helper functions
local to the test, `error.rs`, and two assertions on an array of 50331646 entries.

## Trusted base

* Coq 8.16.1 kernel, including its `vm_compute` conversion.
* `Print Assumptions` for every one of the theorems in `Prop*.v` prints `Closed under the global context`: no axioms at all.
  (A scan of everything *loaded* also sees axioms of the standard library, e.g. of `Coq.ssr.ssrunder`; no theorem uses one.)
* The reading of the Rust source; each definition cites file and lines.
* The behaviour of external crates, re-implemented from their documentation: base64 (URL_SAFE engine), regex (the three patterns
  used), serde_json 1.0 (reader with preserve_order and recursion limit 128, printers), indexmap (2.2.6: shift_remove etc.),
  num-rational (`Ratio<i32>` 0.4), std string functions.  No Cargo.lock is pinned; newer patch versions are assumed alike.
* The oracles: nothing is assumed of `Crypto` and `Floats` except the hypotheses visible in each statement.

## Modelled

Every non-test function of `src/core`, `src/data.rs` and the dispatch of `src/crypto` (which oracle is called with what), except:

## Not modelled

* those `wasm/` methods that only forward to the method of the same name (checked by eye: every argument is in its place); test code, the `Display` text of errors, `Clone`/`Debug`/`PartialEq` derives.
* Signature, key derivation (argon2id) and key generation algorithms, randomness, wall clock: oracles, with contracts
  stated as hypotheses where needed. The digest algorithms are an oracle too, so that theorems hold for any of them,
  but `Hash.v` defines the actual ones and C78 shows that they meet the contract. Likewise reading and printing floats: `Float.v` and C79.
* CBOR/MGPK: the code knows their names but returns an error for them (modelled as such).
