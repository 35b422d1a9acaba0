#!/usr/bin/env python3
# generates /verif/properties.jsonl from the list below (edit here, then run)
import json
P=[]
def p(title, statement, quantifier, why, anchors):
    P.append(dict(id="C%02d"%(len(P)+1), title=title, statement=statement, quantifier=quantifier, why_tests_cant=why, anchors=anchors))
M="src/core/matter/mod.rs"; MT="src/core/matter/tables.rs"; U="src/core/util.rs"; I="src/core/indexer/mod.rs"; IT="src/core/indexer/tables.rs"; C="src/core/counter/mod.rs"; CT="src/core/counter/tables.rs"; CM="src/core/common.rs"
# --- Matter -------------------------------------------------------------
p("Matter text round trip","For every primitive built from (code, raw) by Matter::new with a code of the code table, qb64() succeeds and parsing that text yields a primitive with the same code, size and raw.","every table code and every raw byte string that the constructor accepts (fixed and variable size, including promotion small->large)","infinitely many raws; sizes up to 3*64^4 bytes; tests hold a few vectors per code",[M+" new_with_code_and_raw infil exfil",MT+" sizage hardage"])
p("Matter binary round trip","For every primitive built from (code, raw) with a table code, qb2() succeeds and parsing those bytes yields the same code, size and raw.","as C01","as C01",[M+" binfil bexfil",U+" code_b2_to_b64 nab_sextets"])
p("Matter text/binary composability","qb2() is exactly the Base64-URL decoding of qb64(), and qb64() the encoding of qb2(); concatenating primitives commutes with the conversion.","every constructible primitive, every list of them","universally quantified over content and over sequences",[M+" infil binfil"])
p("Matter self-framing","Parsing qb64()++tail (or qb2()++tail) gives back the primitive whatever the tail is, and full_size() is the number of text characters consumed (4/3 of the binary length).","every constructible primitive and every tail (for text: every UTF-8 tail)","arbitrary suffix of a stream",[M+" exfil bexfil full_size"])
p("Matter text parse is canonical","If a text made of Base64-URL characters parses, then re-encoding the result gives exactly the first full_size() characters of the input: no two different texts of that size denote the same primitive (no malleability, pad and lead bits are checked).","every Base64-URL text","all inputs, in particular adversarial pad bits",[M+" exfil infil"])
p("Which accepted texts can be encoded again","A text that parses can be encoded again exactly when the part the parser consumed contains no '=' character; then the text encoding is that part and the binary encoding is its Base64 decoding. (Texts with '=' inside the primitive are accepted and give a value that cannot be encoded, or panics while being encoded in an overflow-checked build: a defect, shown by witnesses.)","every text that parses, both build profiles","adversarial input outside the alphabet",[M+" exfil"])
p("Matter binary parse is canonical","If a byte string parses as qb2, re-encoding the result gives exactly the consumed prefix of the input.","every byte string","all inputs",[M+" bexfil binfil"])
p("Text and binary parsers agree","For every Base64-URL text whose length is a multiple of 4, parsing the text and parsing its Base64 decoding accept the same inputs and give the same primitive.","every such text","two independent parsers compared on all inputs",[M+" exfil bexfil"])
p("When Matter parsing panics","Parsing a text as a Matter panics exactly when a position where the parser slices (end of the code, of the fixed-size text, of the size characters, of the sized text) lies inside a multi-byte character, or the text starts with a lead-byte code of size zero, or a two-lead-byte code is followed by a single padded byte; parsing bytes panics exactly when they start with the binary form of a lead-byte code of size zero. In all other cases it returns Ok or Err. ('Never panics', which a user would expect, is refuted by witnesses.)","every string, every byte string, both build profiles","adversarial input",[M+" exfil bexfil new_with_qb64 new_with_qb64b new_with_qb2"])
p("Raw size discipline","With a fixed-size code: a raw shorter than the code's raw size is rejected with a shortage error, a longer one is truncated to exactly that size, an unknown code is rejected, an empty code is rejected.","every code string and raw","all lengths",[M+" new_with_code_and_raw",MT+" raw_size"])
p("Variable size code selection","With a variable-size code the constructor chooses lead size (3 - len mod 3) mod 3, quadlet count ceil(len/3), the small form iff the count is below 64^2, the large form below 64^4, otherwise an error; the raw is kept whole.","every raw byte string up to 2^32-1 bytes","lengths far beyond test sizes; boundary at 64^2 and 64^4",[M+" new_with_code_and_raw"])
p("Prefix-freedom of the text domain","If the qb64 of one primitive is a prefix of the qb64 of another, they have the same code, size and raw; in particular qb64 and qb2 are injective.","every pair of constructible primitives","pairs of arbitrary primitives",[M+" infil exfil"])
p("Constructed primitives encode","qb64() and qb2() never fail and never panic for a primitive constructed through the API with a table code, in either build profile (no integer underflow or overflow).","every constructible primitive, both build profiles","all sizes, overflow checks on and off",[M+" infil binfil"])
# --- Counter ------------------------------------------------------------
p("Counter round trips and composability","For every count code and every count in range, qb64 and qb2 succeed, parse back to the same code and count whatever follows, and qb2 is the Base64 decoding of qb64; out-of-range counts are rejected.","every code of the count table, every count, every tail","up to 64^5 counts, all tails",[C+" infil binfil exfil bexfil",CT])
p("Counter parse is canonical","An accepted counter text (binary) re-encodes to its own prefix of full_size characters (bytes).","every string / byte string","all inputs",[C+" exfil bexfil infil binfil"])
p("Which inputs make a Counter panic","Parsing bytes as a binary Counter, building one from a code and a count, and encoding never panic. Parsing a text panics exactly when it is one byte long or one of the places where it is cut (after 2 characters; 3 after \"-0\"; 5 after \"--\"; at the full size of a known code) is inside a multi-byte UTF-8 character; an ASCII text panics iff it is one character long.","every string, every byte string","adversarial input",[C+" exfil bexfil"])
p("count_as_b64 has the requested width","count_as_b64(l) with l>0 is l Base64 characters whose value is the count whenever the count fits; a count below 2^24 that does not fit is silently cut to its l leading digits (widths up to 3), except that at a power 64^(l+k) one character too many is produced; l=0 means the width of the code.","every count and every width","all widths and boundary counts",[C+" count_as_b64",U+" u32_to_b64"])
p("Semantic version encoding","sem_ver_to_b64 is injective, three characters, and fails exactly when a part exceeds 63; sem_ver_str_to_b64 of a dotted decimal string agrees with it.","all u8 triples, all strings","all strings",[C+" sem_ver_str_to_b64 sem_ver_to_b64"])
# --- Indexer ------------------------------------------------------------
p("Indexed signature text round trip","For every signature code of the index table and every index, other index (ondex) and raw the constructor accepts, qb64 succeeds with the size of the code and parses back, whatever follows, to the same code, raw and index and to the ondex the text shows: 0 for current-only codes, the index if the code has no ondex characters, else the ondex. So the very same object comes back when ondex was left out, equals the index, or is carried by the code; for codes A, C and E a different ondex is accepted and silently lost.","every signature code, index, ondex, raw, tail","index space up to 64^3, all raws",[I+" new_with_code_and_raw infil exfil"])
p("Indexed signature binary round trip","Same for qb2; with overflow checks qb2 panics exactly for the codes with six soft characters (3A, 3B: 64^6 overflows u32), and never otherwise.","as C19, both build profiles","as C19",[I+" binfil bexfil"])
p("Indexer composability","qb2 is the Base64 decoding of qb64 for every constructed indexed signature.","every constructed indexed signature","as C19",[I+" infil binfil"])
p("Index and other-index rules","The constructor accepts exactly: raw long enough; index < 64^ms; no ondex for current-only codes; ondex < 64^os when the code carries one (any ondex for A, C, E, which do not carry it); ondex defaults to the index (0 for current-only codes). Unknown codes are rejected, nothing panics. The variable placeholder code 0z takes its length from the index and round-trips; the lead-byte placeholders 1z and 4z are accepted and can never be encoded.","every code, index, ondex","decision table over all integers",[I+" new_with_code_and_raw"])
p("Indexer parse is canonical","An accepted text of a signature code re-encodes to its own prefix of full_size characters and is what the constructor builds from the same fields, provided that prefix contains no '=' (with '=' a short signature that cannot be encoded is accepted); an accepted byte string re-encodes to its own prefix unconditionally.","every text / byte string","all inputs",[I+" exfil bexfil"])
p("Out-of-range indices after set_index/set_ondex","After set_index/set_ondex with an out-of-range value qb64 rejects; qb2 rejects too for the codes without ondex, but for each code with ondex it accepts some out-of-range index and writes a different one.","every field value","all integers",[I+" binfil"])
p("Which inputs make an indexed signature panic","Parsing a byte string never panics. Parsing a text panics exactly when one of the places where the parser cuts it (after the code, after the index, after the ondex, at the full size) lies inside a multi-byte character; so ASCII text never panics.","every string / byte string","adversarial input",[I+" exfil bexfil"])
# --- typed primitives ----------------------------------------------------
p("Typed constructors enforce their code set","Whatever arguments are given, a returned Verfer, Diger, Saider, Cigar, Siger, Signer, Seqner, Dater, Bexter or Pather has a code of its own code set.","every argument combination","product of all optional arguments",["src/core/verfer.rs","src/core/diger.rs","src/core/saider.rs","src/core/cigar.rs","src/core/siger.rs","src/core/signer.rs","src/core/seqner.rs","src/core/dater.rs","src/core/bexter.rs","src/core/pather.rs"])
p("Where Number and Salter check their code","A Number made from a number, a hexadecimal text or raw bytes, and a Salter made from raw bytes, has a code of its own code set; made from qb64, qb64b or qb2 it is whatever Matter parses, with any code (so a 'Number' can have no value).","every argument combination","as C26",["src/core/number.rs new","src/core/salter.rs new","src/core/prefixer.rs new"])
p("Number value round trip and minimal code","Number::new_with_num(n) succeeds for every u128, num() returns n, the code is the smallest of Short/Long/Big/Huge that holds n, and the value survives qb64 and qb2.","every u128","2^128 values, boundaries at 2^16, 2^32, 2^64",["src/core/number.rs new num"])
p("Number hexadecimal round trip","numh() prints the canonical lower-case numeral of the number, and parsing it with new_with_numh gives the same Number. The texts accepted are exactly an optional '+' and one or more hex digits of value below 2^128 (leading zeros and case do not matter), plus the empty text for a Number, meaning 0.","every u128, every hex string","all strings",["src/core/number.rs numh"])
p("When num() panics","num() on a Number made from a number, a hex text, raw bytes or binary input returns Ok or Err; on one parsed from text it panics exactly when the text has a number code and '=' within the characters consumed.","every Number obtainable from text","adversarial input",["src/core/number.rs num"])
p("Sequence number round trip","Seqner::new_with_sn(n).sn() = n, snh() is its canonical hexadecimal text, both survive qb64 and qb2, and the byte order of qb2 is the numeric order. (The character order of qb64 is not.)","every u128 (pairs)","2^128 values",["src/core/seqner.rs new sn snh"])
p("Date-time round trip","A text is accepted and readable iff it has at least 32 characters and the first 32 are of the date alphabet (so a non-date is accepted too); the first 32 are shown again with ':' '.' '+' in place of 'c' 'd' 'p', so every 32 character ISO-8601 time stamp comes back unchanged, also through qb64 and qb2. Shorter texts are rejected; a text cut inside a multi-byte character at byte 32 panics.","every text over the ISO-8601 alphabet","all texts",["src/core/dater.rs iso_8601_to_b64 b64_to_iso_8601 new dts"])
p("Base64 text round trip","Bexter::new_with_bext(t).bext() = t for every Base64-URL text except exactly those of length a positive multiple of 4 that start with 'A', which lose that character; other texts are rejected.","every text","all texts and lengths",["src/core/bexter.rs rawify bext"])
p("Path round trip","A Pather built from a list of non-empty Base64-URL components without '-' (up to the size limit) returns that path and the text '-c1-c2...', and is read back from its text and binary forms. In general exactly the lists of texts and integers written with Base64-URL characters are accepted, and the path of a Pather is its text taken apart at the dashes. (For empty components, components with dashes and negative integers the round trip is refuted.)","every path value","all lists",["src/core/pather.rs bextify path"])
p("Path rooting and stripping","a.root(b).path() is b's path followed by a's. Stripping b from a path that starts with b's components gives the rest when these components are distinct and do not occur in the rest; so strip undoes root under that condition. A longer b leaves the path alone, and a component of b that does not occur panics. (In general stripping is refuted: a wrong component is removed, or it panics.)","every pair of paths","all pairs of lists",["src/core/pather.rs root strip"])
p("Path prefix test","starts_with never fails and is exactly the textual prefix test on the path texts: for proper components, all components of the prefix but the last agree and the last is a prefix of the component at its place; so a component-wise prefix passes. (The converse is refuted.)","every pair of paths","all pairs",["src/core/pather.rs starts_with"])
p("Path resolution","Resolving a path finds exactly the value the components lead to (numerals count list items or map entries, other components are keys), fails otherwise and never panics; resolving a rooted path is resolving the root and then the path inside the result, unless the root has an empty component (refuted); numeral keys cannot be reached by name (refuted). The tail of a message is the identifier text or the JSON of the map or list found.","every value, every path","arbitrary nesting depth",["src/core/pather.rs _resolve"])
# --- Tholder ----------------------------------------------------------
p("Numeric threshold","An unweighted threshold is a number n below 2^32, given as an integer or, in a sith, as signed hexadecimal text; negative, larger and malformed inputs are rejected with the proper error. It is satisfied by a list of indices iff n>0 and the list has at least n entries. (Entries are counted with repetition: that distinct indices are needed is false of the code, and proved so.)","every integer, every sith text, every list of indices","all lists",["src/core/tholder.rs satisfy_numeric process_unweighted"])
p("Weighted threshold","A weighted threshold reported as satisfied is satisfied: in every clause the exact rational sum of the weights at the distinct given positions is at least 1. This holds in every build, even if 32 bit arithmetic overflows. If the sums fit in 32 bits the answer is exact in both directions; with overflow checks on it is exact or a panic. (Without them a satisfied threshold can be reported as not satisfied: proved by a counterexample.)","every constructed weighted threshold with fewer than 2^32 weights, every index list","all clause shapes, exact rational arithmetic",["src/core/tholder.rs satisfy_weighted values_to_rationals"])
p("Satisfaction is monotone and order/duplicate insensitive","Adding in-range indices never unsatisfies a threshold (as long as sums fit in 32 bits; otherwise, with overflow checks, the call may panic but never answers false); for weighted ones the result depends only on the set of indices, panics included; for unweighted ones only on their number.","every constructed threshold, every pair of index lists","all lists",["src/core/tholder.rs satisfy"])
p("When weighted satisfy panics","For a weighted threshold whose sums fit in 32 bits, satisfy(indices) panics iff some index is not below the size, and never returns an error. (That it never panics is false: proved for an index equal to the size in every build, and for indices in range with overflow checks.)","every constructed weighted threshold and index list","adversarial index",["src/core/tholder.rs satisfy_weighted"])
p("Threshold acceptance","Only an integer or a list of lists of weight texts is accepted as thold; an accepted weighted threshold, in every build, has weights between 0 and 1 that add up to at least 1 in every clause; as long as sums fit in 32 bits and the text is not too long, acceptance is exactly that, and a clause below 1 is rejected with a Value error. A sith list is a non-empty list of clauses or a single clause. A limen is accepted exactly if it is the text of a number or of weights, and means the threshold of that number or those weights; other primitives, and bytes that are not UTF-8, are errors. (Malformed weights are not all rejected: '1/2/3' is read as 1, '0/0' panics, and an empty thold list is accepted and always satisfied; proved.)","every thold and sith value","all strings",["src/core/tholder.rs values_to_rationals"])
p("Threshold limen round trip","Rebuilding a Tholder from its limen gives the same Tholder (same thold, size, flag and satisfy function), if it has at least one clause and its weights take at most 2^32 characters. (Proved false for the threshold without clauses.)","every constructed threshold","all thresholds",["src/core/tholder.rs limen process_limen rationals_to_bext"])
p("Threshold sith and JSON round trip","Rebuilding a Tholder from its thold gives the same Tholder; so does rebuilding it from its sith, or, if weighted, from its JSON text, if it has at least one clause. (Proved false for the sith of the threshold without clauses and for the JSON text of an unweighted one.)","every constructed threshold","all thresholds",["src/core/tholder.rs sith process_sith"])
# --- data / versions / SAIDs --------------------------------------------
p("JSON serialisation is injective","Two values (i64 integers, distinct object keys, finite floats identified with their printed text) that serialise to the same JSON text are equal, objects being ordered maps. (A NaN or infinite float prints as null, so it is excluded.)","every pair of values","arbitrary nesting, all strings incl. control characters and quotes",["src/data.rs to_json"])
p("JSON round trip","The JSON text of a value whose floats print with a '.' and are read back unchanged reads back to the same value when arrays and objects are nested at most 127 deep, and is refused with an error when nested deeper. A value that was itself read from a JSON text has i64 integers, distinct keys and at most 127 levels, and its own JSON text reads back to that same value if its floats are read back from their texts (not all are, see Floating point numbers). White space wherever JSON allows it does not change what is read. (Refuted without the condition on floats: 1e300.)","every value, every JSON text, every reader of floating point numerals","arbitrary nesting",["src/data.rs to_json From<&JsonValue>"])
p("JSON import panics only on unrepresentable numbers","Reading a JSON text into a Value returns a value or an error, except that it panics exactly when the text is valid JSON containing a number that is an integer above i64::MAX or a float printed without a '.'. (Refuted as 'never panics'.)","every text, every reader of floating point numerals","adversarial input",["src/data.rs From<&JsonValue>"])
p("Version string round trip","deversify never panics and accepts exactly the 17 character strings: protocol KERI or ACDC, one lower case hex digit major, one minor, JSON, six lower case hex digits of size (below 2^24), '_'; it returns those parts. versify of such parts gives that string; versify refuses other protocols and kinds; for larger versions or sizes it succeeds but deversify refuses the result.","every string","all strings",[CM+" versify deversify"])
p("Sizeify writes the true size","If the entries of an object before 'v' take at most 7 characters of JSON (e.g. 'v' is first), sizeify succeeds exactly when 'v' is a version string of version 1.0 (agreeing with the requested kind) and the JSON is below 2^24 bytes (mod 2^32); the returned raw is then the JSON of the returned ked, which differs from the input only in the size in 'v', and that is the length of raw; sizeify is idempotent. For every object: raw is the JSON with its first version-like text replaced. sizeify never panics. (raw = JSON of ked for general objects is refuted.)","every object","arbitrary objects",[CM+" sizeify"])
p("Sniff and load","sniff never panics and succeeds exactly on UTF-8 byte strings of at least 29 bytes whose first version-like text starts within 12 bytes and names kind JSON, and returns its parts. A Serder (Creder) is built from bytes exactly when they announce in this way a KERI (ACDC) 1.0 JSON message of no more bytes than there are, the announced part reads as a value, and its 'd' is the text of a digest of the expected code; it then holds that part and nothing after it. Building panics exactly when the announced size exceeds the bytes, a number cannot be held, 'd' is missing, or the text of 'd' makes the parser panic.","every byte string","adversarial input",[CM+" sniff loads","src/core/sadder.rs inhale populate_from_raw"])
p("SAID soundness: saidify then verify","saidify never panics; on an object it succeeds exactly when the label is present, the code is a digest code, the kind is JSON and (if 'v' is present) the size can be written; it returns the digest of the JSON of the object with the label replaced by the placeholder and the size written, less the ignored entries, and that object with the digest's text as label; the returned saider verifies the returned object under every combination of the prefixed and versioned checks, and the version string states the length of its JSON. A Saider made from an object (new_with_sad) has the requested code or that of the label field, and the same digest.","every object, digest code, label, ignore list","all objects",["src/core/saider.rs saidify derive verify"])
p("SAID binding","verify is true exactly when the saider's raw is the digest of the object's sized placeholder form, the stated size is right (unless versioned is off), and the label field is its text (if prefixed). If one saider verifies two objects, their placeholder texts have the same digest, and if these texts are equal the objects agree outside label and ignored entries; so a changed object verifies only if the digest collides on two different, explicitly given texts. verify panics exactly on non-objects and on a missing label under the prefixed check.","every pair of objects","all pairs",["src/core/saider.rs verify derive","src/data.rs to_json"])
p("Digest verification","Diger::verify(ser) is true iff raw is the digest of ser under the diger's algorithm; compare is true iff both texts are equal, or the algorithms differ and both verify.","every ser, every pair of digers","all inputs",["src/core/diger.rs verify compare"])
p("Prefix derivation and verification","A Prefixer made from an event with a code succeeds exactly if the code is one of the fifteen prefix codes and permitted by the allow list, the event is an inception event (ilk icp, dip or vcp), and: for a key code the event has exactly one key and that key has the code (and, for the three non-transferable codes, 'n', 'b' and 'a' are absent or empty texts), the prefix then being that key; for a digest code the event, with placeholders for 'i' and 'd', has a sizeable version string, the prefix then being the digest of that sized text. Without a code, the code is that of the prefix in 'i'. Verification answers true exactly if the event is an inception event whose only key has the text of the prefix (and 'n' is not a non-empty text or list for a non-transferable key), respectively whose digest is the prefix, and, when asked for, 'i' is the prefix. A derived digest prefix verifies the event, also after it is stored in 'i', and so binds the event: two verified events that hash the same text agree in everything but 'v', 'd' and 'i'. A derived key prefix verifies exactly if the key's text is the prefix's text. The exact conditions of panics are given. Known limits are proved: keys followed by extra characters derive but do not verify; the usual empty lists for 'n', 'b', 'a' prevent derivation of non-transferable prefixes; a Prefixer made from text may have any code.","every event map, code, allow list, prefix, crypto suite and build profile","all events",["src/core/prefixer.rs derive verify"])
p("Serder and Creder consistency","A Serder or Creder built from an object whose 'v' starts within 7 characters is built exactly when the version string is a 1.0 JSON one of its protocol, the size fits and 'd' is a digest text of the code; raw is the JSON of ked, size its length, 'v' states that size, other entries are kept; building again from ked, or loading raw followed by any text, gives the same object. What was loaded loads again. (Loading does not verify the identifier, and a failed repopulation is not atomic: refuted.)","every ked","all keds",["src/core/sadder.rs populate_from_ked populate_from_raw"])
# --- signing ---------------------------------------------------------------
p("Indexed signing code selection","sign_indexed picks the code by (only, index<64, ondex): the result carries the requested index and ondex, is current-only iff only was requested, fails exactly when an index exceeds 4095, and round trips through qb64.","every signer, message, index, ondex","all integers",["src/core/signer.rs sign_indexed"])
p("Sign then verify","A signature made by sign_unindexed or sign_indexed verifies under the attached verfer, for each seed code and both transferabilities (given a correct signature scheme).","every signer and message","all messages; relative to the scheme's correctness",["src/core/signer.rs","src/core/verfer.rs verify","src/crypto/sign.rs"])
p("Derived signer paths","salter.signers(count,start,path) succeeds iff the signers of path+hex(start), path+hex(start+1), ... all do, and returns exactly these in order (while start+count stays within 2^64); these paths are pairwise distinct; each seed is the Argon2id output for the path, the salt and the parameters of the requested tier (the salter's own by default, 'min' when temporary), unknown tiers being rejected. (Batches with different path prefixes can share a path: refuted.)","every count, start and path","all ranges",["src/core/salter.rs signers"])
p("Which inputs make a Signer panic","Making a Signer from text panics exactly when Matter parsing panics or the text is an Ed25519 seed with '=' among its 44 characters; from binary exactly when Matter parsing panics; from raw bytes or at random never. Signing and verifying never panic.","every text, byte string, signer and message","adversarial input",["src/core/signer.rs new derive_verfer","src/crypto/sign.rs public_key sign verify"])
p("Value index and assignment","Assigning v[k] = x on an object makes v[k] read x, leaves every other entry unchanged and keeps the order of keys, a new key going last; reading v[k] returns exactly the entry stored under k and panics exactly when there is none; on anything but an object both panic.","every value, key and assigned value","all objects and keys",["src/data.rs:Index","src/data.rs:IndexMut"])
p("From saidify to a verified message","Saidifying an object with 'v' in first place and a 'd' yields an object from which a Serder (Creder) is built with exactly that object and identifier; loading its raw bytes, alone or followed by any text, gives the same Serder, and its identifier verifies its object.","every object, digest code and trailing text","quantifies over all contents and trailing bytes",["src/core/saider.rs saidify verify","src/core/sadder.rs populate_from_ked populate_from_raw","src/core/serder.rs new"])
p("Accessors of events and credentials","For every message whose object has distinct keys (every loaded message has, and every message made from such an object): verfers, digers and werfers return, in order, exactly the primitives the texts of 'k', 'n' and 'b' read as, each with a key (digest) code, or no result; an absent entry is an empty list; tholder and ntholder return the threshold of 'kt' and 'nt' when present; sner and sn read 's' as hexadecimal; pre, est, issuer, schema, subject, status and chains return exactly the entries they name, est being true exactly for icp, rot, dip and drt; said is the text at the front of 'd'. The exact conditions of panics (a missing 's', 'i', 't' or 'a', or a text that makes the parser panic) are given. Known limits are proved: keys and next digests that are not a list are silently no keys; the first seen number is read as the text of a primitive, so one written in hexadecimal is not read.","every message, every entry value and order of entries, every build profile","the entries range over all values, lists of any length, and all texts",["src/core/serder.rs:Serder::{verfers,digers,werfers,tholder,ntholder,sner,sn,fner,_fn,pre,est}","src/core/creder.rs:Creder::{issuer,schema,subject,status,chains}","src/core/sadder.rs:Sadder::said"])
p("Pretty printing","pretty(size) of an event or credential is the text of its content laid out one entry per line with two blanks of indent per level; if the text is longer than size bytes (1024 if none is given) its first size bytes are returned, and if that cuts through a character the call panics; content nested deeper than 127 levels gives an error. A text that was not cut reads back, as JSON, as the content.","every content (with floats that are read back unchanged), every size","all contents, texts and sizes",["src/core/sadder.rs:Sadder::pretty"])
p("Streams of primitives","Any sequence of constructed matters, counters and indexers, written one after the other and followed by anything, is read back item by item - parse at the front, skip the full size - as exactly those items with the rest untouched, in text and in binary; the text stream is the Base64 of the binary stream. A count code followed by that many groups of items of given kinds reads back as those groups.","every sequence of constructible items, every following text or bytes, every count code and group shape","sequences of any length and composition; any following data",["src/core/matter/mod.rs:Matter::exfil","src/core/matter/mod.rs:Matter::bexfil","src/core/counter/mod.rs:Counter::exfil","src/core/counter/mod.rs:Counter::bexfil","src/core/indexer/mod.rs:Indexer::exfil","src/core/indexer/mod.rs:Indexer::bexfil"])
p("Signed events from signers to receiver","An event that lists keys, signed by the signers at any positions and sent as its text, a count code and the indexed signatures, is received - whatever follows - as the same event with the same signatures, every signature verifies under the key its index names, and the event is accepted exactly if the positions satisfy its signing threshold. Conversely an accepted event has only signatures that verify under listed keys; for a weighted threshold the distinct signing keys reach it in every clause; for a numeric threshold at least that many distinct keys signed, provided no position is repeated (without that the claim is false: one signature repeated meets a threshold of two).","every event, signer list, choice of positions, signature randomness, following text; every list of signatures presented","all events, keys, positions, thresholds and presented signatures",["src/core/serder.rs:Serder::verfers","src/core/serder.rs:Serder::tholder","src/core/tholder.rs:Tholder::satisfy","src/core/signer.rs:Signer::sign_indexed","src/core/verfer.rs:Verfer::verify"])
p("Crash freedom of the composite types","Building from a code and raw bytes panics exactly when the code starts like a variable-size code but is too short for one or is cut inside a character (and the raw bytes are not too long). Cigar, Siger, Diger and Number constructors panic exactly when the general constructor they call does; from numbers, hexadecimal or Base64 texts they never panic. Computing an identifier from a value (not both code and raw given) panics exactly when no code is given and the value is an object whose text at the label makes the parser panic. Making an event or credential from an object panics exactly when its version string can be sized and 'd' is missing or a text that makes the parser panic. Making a threshold from a value panics only on a weight '0/0' or counts and sums beyond 32 bits; from text exactly when reading the JSON panics or the list read does. A limen panics exactly when it is shorter than its code, is cut inside a character, has the code of a number or text and panics when parsed (or holds a number text with '='), or gives a threshold value that panics. Making paths from texts or values, reading them back, prefix tests and joining never panic (strip can).","every code, raw, text, object and threshold value","adversarial input of any shape",["src/core/matter/mod.rs:Matter::new_with_code_and_raw","src/core/saider.rs:Saider::new","src/core/sadder.rs:Sadder::populate_from_ked","src/core/tholder.rs:Tholder::new","src/core/pather.rs:Pather"])
p("Numbers across the WebAssembly boundary","num() and sn() give JavaScript a number as its two 64 bit halves, without loss. A number handed to Number or Seqner is read as the bitwise or of its halves: it is the same number exactly if it is below 2^64, and any larger one silently becomes another number below 2^64. So a Number or Seqner is rebuilt from the value it gave out exactly if that is below 2^64.","every number below 2^128, every pair of halves","all 2^128 numbers; the unit tests use small ones",["wasm/src/util.rs:U128Wrapper","wasm/src/primitives/number.rs:NumberWrapper","wasm/src/primitives/seqner.rs:SeqnerWrapper","wasm/src/primitives/serder.rs:SerderWrapper::sn"])
p("Values as text across the WebAssembly boundary","Every binding that takes a value takes it as JSON text and behaves as the library does on the value this text reads as, with all other arguments in their places; array entries that are not strings count as empty names. A text that does not read as a value crashes the call in every case (where the library would return an error), even if other material is given that takes precedence. A threshold is rebuilt from the text of its thold, and from that of its sith if it has a clause.","every text, every array, every other argument; every threshold","all texts and argument combinations",["wasm/src/util.rs:ValueWrapper","wasm/src/primitives/tholder.rs:TholderWrapper","wasm/src/primitives/saider.rs:SaiderWrapper","wasm/src/primitives/serder.rs:SerderWrapper","wasm/src/primitives/prefixer.rs:PrefixerWrapper"])
p("Results as text across the WebAssembly boundary","Saider.saidify never returns a result to JavaScript: it is an error exactly if the library's saidify is one, and crashes when the library's saidify succeeds. Serder.ked crashes for every Serder that can exist. (One would expect both to return the JSON text of the value.)","every value, code, kind, label and list of ignored names; every Serder","all inputs and histories of construction",["wasm/src/primitives/saider.rs:SaiderWrapper::saidify","wasm/src/primitives/serder.rs:SerderWrapper::ked","src/data.rs:Value::to_string"])
p("Lists and code names across the WebAssembly boundary","The arrays of keys, digests and witnesses of an event have every entry in its place; the signer at a position of a list of signers is that one, and there is none exactly past the end; the named matter and indexer codes are distinct, are exactly the codes of the library's tables other than the secp256r1 ones, and signature, key, integer, digest and variable size names stand for codes of that role.","every event, every list of signers and position, every name and code","lists of any length",["wasm/src/primitives/serder.rs:SerderWrapper::verfers","wasm/src/primitives/signer.rs:Signers::get","wasm/src/primitives/codex.rs:CesrideMatterCodex::code","wasm/src/primitives/codex.rs:CesrideIndexerCodex::code"])
p("JSON texts that are read","A JSON text is read exactly if it is a text of the JSON grammar (RFC 8259: white space, literals, numbers, strings with all escapes including surrogate pairs, arrays, objects) that nests arrays and objects at most 127 deep, and it is then read as the document the grammar assigns to it, which is unique: integers by their value, escapes as the UTF-8 of their code points, repeated keys with the place of the first and the value of the last. The Value is that of the document; a document with an integer above i64::MAX or a float printed without '.' crashes; every other text is an error.","every text, every reader of floating point numerals","all texts, valid or not, of any nesting, layout and choice of escapes",["src/data.rs:From<&JsonValue>","src/core/common.rs:loads"])
p("Text encoding","Bytes are taken as text exactly if they are the UTF-8 encoding of a sequence of Unicode scalar values (no overlong forms, surrogates, code points above U+10FFFF or characters cut short). Giving a primitive, counter or signature as bytes is then the same as giving it as text, and giving bytes that are no text is an error, never a crash. Every string and key of a value read from a JSON text is such a text whatever escapes it was written with, the JSON of a value made of texts is a text, and whatever Serder or Creder load from raw bytes is made of texts; bytes that are no text are never loaded.","every byte sequence, every JSON text, every value","all byte sequences, all combinations of escapes and multi-byte characters",["src/core/matter.rs new","src/core/counter.rs new","src/core/indexer.rs new","src/core/common.rs sniff","src/data.rs"])
p("Self-addressing inception events","The prefix that Prefixer derives from an inception event with a digest code, stored in both 'i' and 'd' of the event, makes a Serder of exactly that event (but for the stated size) whose pre() and said() are that text; the Serder's raw bytes, alone or followed by any text, load as the same Serder; the prefix is derived from the loaded event again and verifies it, also with the check of 'i'. But the event's identifier does not verify as a self-addressing identifier (Saider blanks only 'd', Prefixer blanks 'i' and 'd'): Saider.verify returns false unless two different texts have the same digest.","every inception event, digest code, digest function, following text","all event contents and sizes, all digest functions",["src/core/prefixer.rs derive_digest, verify_digest","src/core/saider.rs verify","src/core/serder.rs new","src/core/sadder.rs"])
p("Primitives assembled with the setters","What the encoders give for a default object whose code, size, raw, index and ondex are set one by one to any values. Binary: refused unless the raw bytes have exactly the length of the code (of the size, for a variable code), and what it gives reads back, before any bytes, as the same code and raw. Text: the length is checked only modulo 3, so the text reads back, in front of other text, as the raw bytes cut or completed by what follows to the length of the code, or as a shortage; with a lead-byte code a wrong length can underflow and crash when overflow checks are on. A size too large for a variable code is an error, an unknown code is an error for all encoders, and the full size of a variable code wraps or crashes beyond 32 bits. Indexed signatures: both encoders check the length exactly, and the text reads back as what it shows, except that a current-only code with another index is encoded but refused when read. An index or ondex too large for its code is refused in text, but in binary one that is at most the square of the limit (and no power of 64) is silently replaced by its leading digits.","every code, size, raw, index and ondex, every following text or bytes, every build profile","all combinations of inconsistent fields; the unit tests only build consistent ones",["src/core/matter/mod.rs:Matter::{set_code,set_size,set_raw,qb64,qb2,full_size,infil,binfil}","src/core/indexer/mod.rs:Indexer::{set_code,set_index,set_ondex,set_raw,infil,binfil}"])
p("Compact JSON","The JSON text of a value (what raw bytes, sizes and digests are made of) is a text of the JSON grammar that stands for the value and nests exactly as deep as it, at any depth; no other JSON text that is read as the same value (without floats) is shorter, whatever its white space, escapes, number notation and repeated keys, and one of the same length differs from it only in the case of letters in hexadecimal escapes.","every value, every JSON text that is read as it","all values of any depth and all texts standing for them",["src/data.rs:Value::to_json","src/core/common.rs:dumps","src/core/common.rs:sizeify"])
p("Assembled and default objects","What the accessors and checks do on objects whose fields were set to any values, and on default objects. A Seqner's number is its first 16 raw bytes whatever its code, and fewer crash; a Number's is its raw bytes if they are as many as its code says, another length crashes and another code is an error; a Dater's date is its text without the code, and fails as the text does; a Bexter's or Pather's text is its bytes in Base64, with '=' if they do not fill a group. A digest check compares with all raw bytes; a signature check is an error (never a crash or an answer) for a code that is no key or an Ed25519 key or signature of another length; a Signer without a seed code, or with an Ed25519 seed of another length, gives an error. A Cigar or Siger made without a key holds an empty key under which no check gives an answer. Default objects cannot be encoded (except an empty text, and a Dater whose text has no date), verified or signed with; a default threshold shows 1 but no signatures meet it; a default Serder or Creder has no entries: optional accessors answer none, required ones crash.","every code, size and raw, every list of indices, every message and signature, every build profile","all combinations of inconsistent fields; the unit tests only use constructors",["src/core/seqner.rs:Seqner::sn","src/core/number.rs:Number::num","src/core/dater.rs:Dater::dts","src/core/bexter.rs:Bext::bext","src/core/diger.rs:Diger::verify","src/core/cigar.rs:Cigar","src/core/siger.rs:Siger","src/core/verfer.rs:Verfer::verify","src/core/signer.rs:Signer","src/core/tholder.rs:Tholder","src/core/serder.rs:Serder","src/core/creder.rs:Creder","src/core/counter/mod.rs:Counter"])
p("Event logs","Take logs of events as read from bytes: each event's identifier verifies its content, each but the first names its predecessor's identifier in 'p', has the next sequence number and the same prefix. Two such logs whose newest events have the same identifier have the same content in every event, unless two events at the same place of the two logs are an explicit collision of the digest function (two different texts with one digest). The same holds for logs whose prefix is the identifier of their first event (except for that event's version string), and there the prefix alone determines the first event. The events of a log are numbered from 0; a log written out event after event, before any text, is read back; an object with the right 'p', 's' and 'i' that is saidified extends the log. Keys that verify against the next key digests of an event are unique but for explicit collisions, and keys do verify against their digests. A verified event without floats whose version string is the one that was read has, but for letter case, the compact JSON of its content as bytes. (Not so in general: 'v' can be given twice, so one content has different bytes; and a self-addressing first event shares its identifier with the event that has a placeholder as its prefix: refuted.)","every pair of logs of any length, every event content, digest function, following text","histories of any length and all contents",["src/core/serder.rs:Serder::{new,sn,pre,verfers,digers}","src/core/saider.rs:Saider::{saidify,verify}","src/core/prefixer.rs:Prefixer::verify","src/core/sadder.rs:Sadder","src/core/diger.rs:Diger::verify"])
p("Digest algorithms","With the nine digest algorithms that the codes name (SHA-2, SHA-3, BLAKE2, BLAKE3, written out from their standards and agreeing with the published test vectors), a Diger can be made of every message under every digest code: it holds the digest of the message, which has the size the code table states, and it verifies exactly the messages that have this digest. The 32 byte Blake3 digest of a message is the first half of the 64 byte one.","every message, every digest code","messages of any length and content",["src/crypto/hash.rs:digest","src/core/diger.rs:Diger"])
p("Floating point numbers","The reader's multiplications and divisions round as IEEE 754 prescribes. A numeral whose digits, taken as one integer, are below 2^53 and that scales it by at most 10^22 is read as the f64 nearest to it. Every other numeral (of at most a billion characters and exponents up to a billion) is read with an error of at most 2^-50 of its number and 2^-1073, or is out of range, the number then being above all f64 up to that error; no infinity is read. Every f64 is printed as a numeral with a point or exponent to which it is the nearest f64, so different f64 print differently; apart from zeros at the end it has at most 17 digits, and no more than any other decimal to which the f64 is the nearest; whatever is read is an f64. Hence an f64 printed with such few digits is read back unchanged, and so is every value whose floats are of this kind (and printed with a point). (Refuted for the others, as the reader rounds twice: 9007199254740991.0 is read back as 9007199254740990.0, the document 5e36 loads but its own JSON text crashes the import, and the SAID computed for a value with such a float verifies before serialisation but not after reading the serialisation.)","every f64, every numeral, every value","binary64 has 2^64 values and numerals are unbounded; errors hit about one in ten random f64 of full precision, none with few digits",["src/data.rs to_json From<&JsonValue for Value","Cargo.toml serde_json features"])
p("Conversions of values","Converting a value to a string, boolean, list or map succeeds exactly when it holds one, with what it holds, and agrees with the accessors; both kinds of numbers convert to integers and to floats; all other conversions are refused with a conversion error and none panics. A float converts to the integer next to it towards zero (silently dropping the fraction), or to the extreme i64 of its sign. An integer converts to the f64 nearest to it, and back unchanged if at most 2^53 in size. (Refuted for larger integers: 2^53+1 comes back as 2^53.)","every value, every f64, every i64","2^64 numbers",["src/data.rs TryFrom<&Value>"])
open("/verif/properties.jsonl","w").write("".join(json.dumps(x)+"\n" for x in P))
for x in P: print(x["id"],x["title"])
