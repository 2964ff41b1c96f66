# Formal model of galileo-osnma: design

Source: `/repo/galileo-osnma/src` (and `/repo/osnma-longan-nano/src/main.rs`), read as text.
Prover: Coq 8.16.1, standard library only.

## 1. Trusted base

* Coq's kernel (re-checked by `coqchk`).
* The correspondence between the Gallina definitions in `rocq/theories/Model/*.v` and the Rust
  functions they cite (each definition has a comment with file and lines).  It is a hand
  translation; nothing is extracted from or executed against the Rust code.
  As a sanity check of the translation, `Examples/Vectors.v` and `Examples/UnitTests.v` evaluate the model on the
  crate's own unit tests (among them real protobuf packets), using a Gallina SHA-256 and HMAC (these are tests, not claims).
* What `Print Assumptions` lists for each theorem: see section 5.
* External crates are not modelled, only their interface:
  * `sha2`, `sha3`, `hmac`, `cmac/aes`, `p256`, `p521`, `ecdsa`: a record `crypto` of functions,
    quantified universally in every theorem.  Only the output lengths are assumed where needed
    (`crypto_ok`).  No collision-resistance or unforgeability assumption is made anywhere:
    theorems that depend on it are stated as "or here is a collision".
  * `bitvec`: `BitSlice<u8, Msb0>` is `list bool`; `load_be`/`store_be` are big-endian
    conversion and truncation.
  * `prost` (protobuf codec): in the theorems about framing a pair of functions, with the
    round-trip as a hypothesis where it is needed.  `Model/Protobuf.v` has a model of the codec for
    the messages of navmon.proto, written from the protobuf documentation and the behaviour of
    prost 0.14, whose source is not in the repository; C58 and C59 are about that model.
  * `clap`, `spki`: the parsed arguments and the loading of a PEM file are parameters.
  * `log`: a maximum level; the arguments of a statement are evaluated if its level is enabled.
    What a logger does with a line (and whether that can fail) is not modelled.

## 2. Modelling conventions

* `outcome A := Ok a | Panic`: a Rust panic (failed `assert!`, `unwrap`, slice out of range,
  arithmetic overflow with overflow checks) is the value `Panic`.  `Result`/`Option` stay data.
* `build`: a record of compile time choices.  `overflow_checks` (debug build: overflow panics;
  release build: wraps) and `feature_p521`.  Theorems quantify over it.
* `storage`: the `StaticStorage` parameters (satellites, depths and products), quantified, with
  the consistency rules of the trait documentation as hypothesis `storage_ok`.
* Bytes, week numbers, times are `Z`; lengths and indices are `nat`.
* Values that Rust types restrict (u8, u16, `Svn` in 1..=36, `Gst` with TOW < 604800, arrays of
  fixed length) are restricted by the predicates `op_ok`, `gst_ok`, ... on the inputs of the API.
* `&mut self` methods are functions returning the new state.

## 3. Code modelled

| Model file | Rust code |
|---|---|
| `Model/Gst.v` | gst.rs |
| `Model/Svn.v` | svn.rs |
| `Model/Params.v` | storage.rs, types.rs constants, crypto interface |
| `Model/Bitfields.v` | bitfields.rs (all accessors and checks), NmaHeader of tesla.rs |
| `Model/Maclt.v` | maclt.rs |
| `Model/Tesla.v` | tesla.rs |
| `Model/Merkle.v` | merkle_tree.rs |
| `Model/Subframe.v` | subframe.rs |
| `Model/Dsm.v` | dsm.rs |
| `Model/MackStore.v` | mack.rs |
| `Model/Nav.v` | navmessage.rs |
| `Model/Osnma.v` | osnma.rs |
| `Model/Transport.v` | galmon/mod.rs framing, bin/galmon-filter-inav.rs loop |
| `Model/Apps.v` | bin/galmon-osnma.rs loop with what it logs |
| `Model/Serial.v` | bin/osnma-longan-nano-client.rs; osnma-longan-nano/src/main.rs (line protocol, status text); the two running concurrently |
| `Model/TestVectors.v` | bin/osnma-test-vectors-to-galmon.rs, except for the parsing of the date |
| `Model/FileName.v` | bin/osnma-test-vectors-to-galmon.rs `filename_to_gst`: the date in the name of the file. The parser of dates belongs to the crate chrono, whose source is not in /repo; it is modelled from its documentation |
| `Model/Protobuf.v` | galmon/navmon.proto (all messages) and the encoding by prost |
| `Model/Config.v` | bin/galmon-osnma.rs before the loop (arguments, keys, Merkle root); osnma-longan-nano/build.rs and the start of its main.rs |
| `Model/Logging.v` | the `log` statements of subframe.rs, dsm.rs, mack.rs, navmessage.rs, osnma.rs, with the values that they show; the hand-written `Debug` of bitfields.rs |
| `Model/Work.v` | tesla.rs and osnma.rs, the functions through which a call reaches `Key::one_way_function`, with the number of evaluations |

`Model/Logging.v` has a second version of each function that logs; C62 says that it computes the
same as the first one.  A message is represented by the values that are printed, not by its text.
The lines written by a call before it panics are not part of its result.
`Model/Work.v` is such a second version too (C66_counting_changes_nothing).

Not modelled: the text of log lines, derived `fmt` implementations, the parsing of the command line into the
arguments, PEM, the firmware's UART and hardware set-up, `utils/` scripts, typenum/generic-array
type machinery, memory use, and timing except for the count of C66.

`Examples/*.v` are not part of the claims.  They have a SHA-256 and HMAC in Gallina, the test
vectors of the crate, a toy hash and signature scheme (`Toy.v`) and transmissions built with it
(`Transmit.v`, `Demo.v`).  They show that the hypotheses of the theorems can be met, and they are
the witnesses of the refutations.  `tools/gen_demo.py` generated the messages in `Demo.v`.

Where the model simplifies:

* `get_ced_and_status` and the other getters return the data bits by value, not a reference.
* Buffers of fixed size are lists of that length.
* The input stream of the programs is a list of bytes followed by end of file or by an error.
  Short reads and `Interrupted` are not visible through `read_exact` and so are not modelled.
* In the firmware, received lines with bytes of 128 or more are taken to panic.  UART errors, and
  the timeout of the client, are left out.
* The output of the programs is the list of bytes written; it may fail at any byte.

## 4. Properties and proof plan

`Spec/*.v` contains the specification vocabulary (bit layout of MAC inputs per the ICD, TESLA
derivation, "delivered in the history", "trusted key", Merkle tree of 16 leaves, ...), written
without the model's helpers.  `Proofs/*.v` has the lemmas, `Props/*.v` the final theorems with
examples of their hypotheses and `Print Assumptions`.

| Id | Approach |
|---|---|
| C01 | invariant over histories (induction on the op list): every stored entry with authentication bits has a list of tag evidences; refinement of the MAC input to the ICD bit string |
| C02 | invariant over histories: every key in the store has a derivation to a signed KROOT; every public key has a Merkle proof or is the configured one |
| C03 | invariant: a field with age < 255 was received from this satellite; verified entries have all ages <= 14 |
| C04 | invariant with slot GSTs for monotone histories |
| C05 | invariant: evidence kinds restricted to ADKD 12; timing entries keep 0 bits |
| C06 | "no key material" is absorbing; without key no authentication bits change |
| C07 | corollary of the C02 invariant with no Merkle root |
| C08 | case analysis of process_dsm |
| C09 | false: refuted with concrete histories (three independent panics from unauthenticated input); positive theorem under well-formedness of the completed DSMs |
| C10 | invariant: entries with a satellite have a slot GST; ages at most 255 |
| C11, C12, C13, C48 | invariants of the two key stores over all operation sequences |
| C14, C15 | induction on the number of derivations |
| C16 | case analysis, field extraction commutes with the signed bytes |
| C17 | injectivity of the ICD bit string |
| C18, C34 | exact characterisation of authbits changes in process_mack |
| C19, C20, C21 | arithmetic on the layout; finite tables by computation |
| C22 | reduction to an explicit SHA-256 collision |
| C23, C24 | refinement of the collector to a function of the history |
| C25 | refinement of the DSM collector to a function of the history |
| C26, C27 | invariant of the ring buffer; simulation with the list of stores |
| C28, C29 | bit range algebra |
| C30 | pigeonhole on distinct SVNs in a row |
| C31 | false with gaps or saturation (refuted); true for gap-free histories |
| C32 | ring order |
| C33 | monotonicity of authbits during process_tags plus one increment |
| C35, C36, C49 | direct |
| C37, C39, C41 | arithmetic |
| C38, C40 | false: refuted by witnesses |
| C42 | induction on the packet list |
| C43 | false for truncation in the header (refuted); true inside the body |
| C44 | loop invariant |
| C45 | text codec round trip |
| C46 | false (refuted: a repeated KROOT forgets the change); true immediately after the change |
| C47 | false (refuted by replay) |
| C50 | text grammar equivalent to the parsers; list algebra; composition with C42 and C44 |
| C51 | induction on the packet list |
| C53 | invariant of the concurrent system; lexicographic measure for termination |
| C52 | invariant of the arrays of the data seen last; composition of C44, C01 and C04 |
| C54 | case analysis of each call; induction on the history |
| C55 | invariants of a correct transmission: the DSM buffer (blocks of several DSM-KROOTs), the keys (all on the chain), the MACK store and the rows of the navigation store; then C33 |
| C56 | composition of C01, C02, C04 and C22; induction on the number of derivations |
| C57 | invariant: the bits counted for an entry are those of a duplicate-free list of tag identities, none of them of the current key or later; refutation by computation over all received subframes |
| C58 | case analysis of the arguments; loop invariant for any bytes; composition with C52 and C59 |
| C59 | field tables by evaluation of a parser on the text of navmon.proto; decoder equivalent to a relational specification of the wire format (induction on the fuel and on derivations), so round trip and independence of order; sizes by induction on types |
| C60 | false (refuted: invariant of the last entry of the row under turns of two satellites); true for satellites that have an entry |
| C61 | the invariants of C55 with the public keys: none before the DSM-PKR of the key in use, that key as the current one after it; the run of DSM-KROOT blocks starts after the DSM-PKR |
| C62 | erasure of the lines, function by function, with the invariant of C01 where the arguments of a line could panic; a simulation between two levels |
| C63 | invariant: the authentication bits of each entry are at most 40 for each line about its satellite |
| C64 | the invariant of C01 at each log statement; rejections need the completeness of the checks (C14, C16, C21), the reasons of the errors (C73) and what is never forgotten (C79); for DSM blocks and the MACK storage, what is held is exactly what was received (C25, C26); for the navigation data storage, its rows before and after the call (C29, `feed_stored`) |
| C65 | false (refuted: two arguments are exchanged); what is printed |
| C66 | false (refuted: a root key of the future and a change of chain); bound from the latest time of a call or a root key, as an invariant of the key store |
| C67 | false (refuted with an outage of 26 hours and a new DSM-KROOT); the keys of a receiver of a transmission as in C55: the next key is accepted exactly if it is at most 25 hours after the one held |
| C68 | false (refuted with one forged block); the invariants of C55 for the calls after any state: the DSM buffer starts again when the DSM changes, the keys of the chain are all of the transmission, keys of other chains stay apart |
| C69 | false (refuted with an announcement 26 hours before); by C55 a receiver of the first transmission has only keys of its chain, so C68 applies to the second one |
| C70 | the layouts of C16 and C22; codes by cases of their values; a message on which the signature function does not panic has the layout |
| C71 | false (refuted with a P-256 key in 16 blocks); the slice of the hash is in range exactly when the padding has at most 32 bytes |
| C72 | a relation between stores that differ only in the bits, kept by all calls (no decision of the store depends on the bits); entries without bits are not returned |
| C73 | case analysis of each validation function; for MACK the loop over the tags stops at the first wrong one; refuted for two error values (alert without its own error, different chain for equal ids) |
| C74 | induction over the lines for what the firmware writes; invariant over the interleavings that ties the bytes printed, read, on the way and pending to the bytes written; uniqueness of the division into lines for the end |
| C75 | the completeness theorem of the library applied to the calls that the programs make of their input; the log grows, so what is logged at an earlier point is a prefix; no panic because the library does not panic on an honest history and the packets are not bad |
| C76 | invariant over the calls after the words: the entry of the data in the current row holds at least the bits of all the tags whose key is known; a call moves a tag from unknown to known exactly when the key of its subframe becomes the current key, and then the fold over the tags of the MACK message adds its length to every row with the same data |
| C77 | every valid date has a day number that the relation for the next day increases by one (leap years by cases on the remainders modulo 4, 100, 400); the scanners of the model read back what the specification writes; the seconds since 1970 are linear in the day number |
| C78 | every function of the logging model is shown not to log above level info under what the stores hold: the blocks collected are of the messages sent, the MACK rows have room, the key held is the one of the last complete subframe (so the next is within 25 hours), and the entry of a tag has the data of the subframe before it, because without missed subframes an age of n rows is an age of n subframes; a receiver without the public key is in the same states, except that a DSM-KROOT stops at the missing key |
| C79 | invariant over the calls: either an alert was verified, or the root is the initial one and the id of the current public key is at least a given one; the effect of a DSM (C06) shows that nothing else clears them; the same invariant with the key of the chain in force and with the revocations |
| C80 | the navigation data store changes in a call with OSNMA data only after a key of the completed subframe was stored; the invariant of C01 with the fixed history before is kept by the other calls (as in C06) |
| C81 | case analysis of the functions with logging: the relation "the lines account for the changes" is reflexive, transitive and monotone in the lines; the consistency of the key stores (C11) excludes the public key revocations |
| C82 | the slots of two satellites in the collection of subframes are changed independently; the rest of the receiver does not read this collection, so processing a subframe commutes with setting it; induction over the exchanges. Navigation data words: a simulation between storages whose rows are permutations of each other, kept by feeding (the entry chosen is the same one, there being room), by tags and by ageing |
| C83 | the number of words collected for a satellite is never again the place of a word once this word has come, so the word is ignored; the fields of a navigation data word stay in the entry of the satellite with age 0 until a word of the same type comes, so copying them again changes nothing; induction over the removed repetitions |

Properties that turned out to be false of the code have a theorem `..._refuted` with a witness,
and theorems with what does hold.  Their status in `MANIFEST.json` is `partial`.

## 5. Print Assumptions

Each file in `Props/` ends with `Print Assumptions` of each of its theorems.  For every theorem
the answer is `Closed under the global context`: no axioms are used, not even of the standard
library.  (`coqchk` lists the parameters `Coq.ssr.ssrunder.Under_rel.*` of a functor application
of the standard library that is loaded with `Lia`/`ZArith`; no theorem uses them.)
