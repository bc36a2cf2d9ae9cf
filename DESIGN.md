# Formal model of bytebeamio/mqttbytes in Rocq (Coq 8.16.1)

## 1. Approach

* One Coq file per Rust file (`src/lib.rs` -> `Lib.v`, `src/topic.rs` -> `Topic.v`,
  `src/v4/connect.rs` -> `V4Connect.v`, ...), one Gallina function per Rust function,
  each with a comment citing file and lines.  No proofs in model files.
* `u8/u16/u32/usize` are `N`; `Bytes`, `BytesMut`, `String` are `list N` (byte lists).
  Rust's type ranges are predicates (`u8_ok`, `u16_ok`, `u32_ok`, `str_ok`, ...), gathered per packet
  in a `typed` predicate: every Rust value satisfies it.  Restrictions a *caller* has to respect
  (strings <= 65535 bytes, body <= 268435455) are kept in separate predicates (`fits`).
* `Result` is `outcome A = Ok a | Err e | Panic | Diverge`.  `Panic` is produced by exactly the
  operations that panic in Rust/`bytes` (`split_to`, `advance`, `get_u8/16/32` out of range, slice
  index out of range, non-char-boundary `&str` slicing, checked integer overflow/underflow);
  `Diverge` is loop fuel exhaustion and is proved unreachable.
* A decoder working on `&mut Bytes` is `bytes -> outcome (A * bytes)`.
  `read(&mut BytesMut, max)` is `bytes -> N -> outcome Packet * bytes` (the stream after the
  call is observable also after an error).  A writer on `&mut BytesMut` is
  `bytes -> outcome A * bytes` (the buffer after an error is observable).
* Specifications live in separate files (`Spec*.v`): wire encodings written from the MQTT
  3.1.1 / 5 documents with plain arithmetic (no bit operations, no buffer, no cursor), Unicode
  scalar values for UTF-8, an inductive relation for topic matching, decoder grammars as
  relations.  They use only the API data types (the records) of the model.
* Property theorems live in `Prop*.v`, named `Cnn_...` after the property, each followed by
  `Print Assumptions` and accompanied by `Example`s (`Cnn_..._case`) showing non-trivial
  instances of the hypotheses.  Expectations the code violates are stated as `..._refuted`
  theorems (a concrete reachable counterexample) next to a theorem that says exactly when and
  how the code deviates.

### Files

| layer | files | content |
|-------|-------|---------|
| machine | `Base.v` | outcomes, reader/writer monads, the operations of the `bytes` crate, checked `usize` arithmetic |
| model | `Utf8.v` `Lib.v` `Topic.v` `V4*.v` `V5*.v` `Debug.v` | one definition per Rust function, with file and lines; `V5*.v` with property sets were generated by `tools/gen_v5_model.py` from a table and then are ordinary committed sources |
| model, no overflow checks | `Release.v` `Rel*.v` | generated by `tools/gen_release.py`: the definitions above that use machine integers, repeated with unchecked arithmetic |
| translation of the source | `SrcBase.v`, `Src*.v` | generated by `tools/rust2coq.py` from the Rust text: a lexer, parser, type inference and one definition per function, independent of the hand-written model except for its data types and the buffer primitives of `Base.v` |
| agreement | `ProofSrc*.v` | every function of the translation equals the hand-written one (see section 3) |
| model tests | `ModelTests.v` | the unit tests of the repository, run on the model (`tools/gen_model_tests.py`); they check the model, they are not counted as proofs |
| specification | `Spec*.v` | elementary encodings, UTF-8, framing, packets and their wire form, grammars, property sections, error priorities, receiver/sender loops, topic matching; no function of the model is used, only its data types (exceptions are named in the file) |
| proofs | `Proof*.v` | Hoare-style lemmas for readers (`wp_*`), write lemmas, soundness and completeness of every decoder |
| theorems | `Prop*.v` | the theorems of MANIFEST.json |
| samples | `SampleV4.v` `SampleV5.v` | non-trivial packets used in the examples |

## 2. Per property plan

| id | modelled as | proof |
|----|-------------|-------|
| C01 | `Lib.length`, `write_remaining_length`, `len_len` | case split on the four ranges + div/mod arithmetic |
| C02 | `Lib.check` against `Spec.check_spec` (relation) | induction on the at most 4 header bytes |
| C03, C04, C05 | corollaries of the exact characterisation C02 | list prefix reasoning |
| C06, C07 | Hoare-style predicate on readers (no Panic, no Diverge, result is suffix, strict progress) | compositional over bind, induction on loops |
| C08, C09 | `V4.read`, `V5.read` | from C02 and suffix lemmas |
| C10 | error-class parameter of the Hoare predicate | same |
| C11 | refuted for v5 (witness) + exact characterisation of when | vm_compute, Hoare predicate |
| C12, C13 | `write p buf = (Ok n, buf ++ spec_bytes p)` | per packet, compositional `wrote` lemmas |
| C14, C15 | same statement with arbitrary `buf`; CONNECT refuted on non-empty buffers, exact effect proved | same |
| C16 | total description of the writer's result for all values | same |
| C17 | refuted with witness; positive part: what is left in the buffer | vm_compute |
| C18, C19 | `read (spec_bytes p ++ rest) = (Ok (canon p), rest)` | field lemmas; generic lemma on the property loop |
| C20, C21 | corollaries of round trip | - |
| C22, C23 | receiver loop model (`drain`, `feed`) | induction on packets and chunks |
| C24 | same loop on arbitrary bytes | prefix stability (C04) |
| C25, C26 | postcondition of the Hoare predicate | same proof as C06/C07 |
| C27, C28 | from C25 + C18; v5 refuted for CONNACK/DISCONNECT/PUBLISH, proved for the rest | - |
| C29 | `Utf8.utf8_ok` against list of scalar values | induction on the byte list |
| C30, C33, C34 | `Topic.matches` against inductive relation | induction on levels |
| C31 | refuted: panics iff first scalar value >= 128 | witness + characterisation |
| C32 | `Topic.valid_filter` | induction |
| C35 | every table, both directions | exhaustive case analysis over 256 bytes lifted to the type |
| C36, C37 | generic property loop lemma | induction on the property sequence |
| C38 | refuted (3 identifiers) + exact criterion | generic loop lemma with over-counting |
| C39, C40, C41, C42 | refuted by witnesses, with positive/partial companions | vm_compute / lemmas |
| C43 | `decodes` relation iff `read` | inversion of readers |
| C44, C46 | case analysis on `read` | - |
| C45 | all constructors and setters, their wire form | computation / induction on call list |
| C47 | `decodes_body` grammar (SpecV5) iff `v5::read` | soundness + completeness per decoder |
| C48 | receiver loops on arbitrary bytes, v5 | prefix stability; refutation for the documented receiver |
| C49 | `first_error`/priority relations (SpecErrorsV4/V5) against `read` | wp lemmas with the exact error |
| C50 | `FixedHeader::new/packet_type/frame_length`, `len_len` as public API on arbitrary numbers | arithmetic, exact panic condition |
| C51 | each packet's own `read` with an arbitrary `FixedHeader` and arbitrary bytes | SpecDirect; wp lemmas without the framing hypothesis |
| C52 | `len` of every packet and property set against the bytes written | from the write lemmas |
| C53 | v4 bytes into v5 `read` and the reverse | composition of both grammars |
| C54 | property sets' `extract` alone | section lemmas, exact error |
| C55 | `Debug.v`: hand-written `Debug`/`Display` impls and the derived `Debug` of `Error`, `QoS`, `PacketType` they call | injectivity of decimal and quoted text |
| C56 | size of a decoded packet against the frame; its memory (`SpecRelease.v`) against the frame (`PropMemory.v`) | from the grammars; tightness by C18/C19 on UNSUBSCRIBE with `k` empty filters |
| C57 | two limits, one stream | from the exact characterisation of `check` |
| C58 | receiver loop over arbitrary frames (also malformed) and tails | induction on frames, fuel independence |
| C59 | sender loop (write, cut back, flush) composed with the receiver loop | invariant `transport ++ buffer = concatenated encodings` |
| C60, C61 | `SpecStd311`: the messages of OASIS MQTT 3.1.1 and their encoding, written from the standard; against `v4::read`/`write` | messages map into the `decodes_body` grammar; accepted frames classified by a list of deviations; `content_det`: the encoding is injective, so the packet determines the message (`PropMeaning4.v`) |
| C62 | `SpecStd5`, `SpecStd5Dev`: the same for MQTT 5 with property sections; against `v5::read` | unique parsing of sections (`parsed_det`), classification as for C60; `SpecStd5Mean.same_message`: when two messages say the same, proved to be when they are one packet (`ProofStd5Mean.v`: each property record determines its section up to the order of different identifiers) |
| C63 | `SpecStd5Write`: the packet values of MQTT 5 with a standard encoding; against `v5` `write` | the message a value stands for (`message_of`), unambiguous encoding (`content_det`) |
| C64 | `Release.v`, `Rel*.v`: every definition using machine integers again, with the result of an overflowing operation a parameter; `SpecRelease`: memory of a packet | step-by-step comparison of both models (`ProofRel*.v`); sums bounded by the memory (`v4_bound`, `v5_bound`); for the source: the generated `Wrap*.v` (text of `Src*.v`, arithmetic of `WrapBase.v`) against `Src*.v`, one lemma per function (`ProofWrap.v`, generated) |
| C65 | the decoders of C51 in `Rel*.v`; `release`: results modulo 2^64 | same comparison; induction on the filter loop of UNSUBSCRIBE; `PropSourceRelease.v` the same for `Wrap*.v` |
| C66 | the mechanical translation of every `len` (`SrcV4*.v`, `SrcV5*.v`), whose additions panic on overflow; `SpecSource.v4_lens`, `v5_lens` pair each with the encoding size | each equals "the exact sum if it is a `usize`, else panic" (`ProofSrcLen.v`); sums bounded by the memory as in C64 |
| C67 | the mechanical translation of the nine `extract` functions, which keeps the buffer after failures; `SpecStop.v`: where each defect leaves the buffer | induction over the property loop with the consumed bytes as invariant (`ProofSrcStop.v`) |
| C68 | the mechanical translation, in which a `while` gets a number of rounds and ends in `Diverge` when they are used up | comparison with the model for that many rounds (`v4_read_rounds`), the model never diverges (C06, C07); frame size from `check` (C02) |
| C69 | `SrcDebug.v`, generated: derived `Debug` of every struct and enum and the `write!` of every hand-written impl, on top of `SrcFmt.v` (what `core::fmt` and `bytes` write for structs, tuples, options, vectors, strings, byte strings) | every text is readable from the front (`Coded`, `ProofSrcDebug.v`), composed along the types |
| C70 | the same | substring by construction; for PUBLISH a consequence of C69 |
| C71 | `SrcEq.v`, generated: the derived (or hand-written) `PartialEq` and `PartialOrd` of every type, over `SrcCmp.v` (what `core`, `alloc` and `bytes` do on integers, strings, options, vectors, pairs) | each `==` decides equality (`ProofSrcEq.v`), composed along the types; with C18-C21, C25, C26 for bytes and round trips |
| C72 | `Port*.v`, generated: the text of `Src*.v` once more over `PortBase.v`, where the width of `usize` and the result of every overflowing operation are parameters (`Target`) | comparison with `Src*.v` function by function (`ProofPort*.v`): relation `psim` (same result unless the checked 64-bit build panics), invariants `cursor + 2·rest <= 2·buffer` for the property loops, `fits` for sums of lengths; every theorem assumes `32 <= bits`; a 16-bit target is a counterexample |
| C73 | `SrcClone.v`, generated: the derived (or hand-written) `Clone` of every type, over `SrcCmp.v` | each `clone` is the identity (`ProofSrcClone.v`), composed along the types; induction on lists |
| C74 | `read` then `write` on the messages of `SpecStd311`/`SpecStd5`; `SpecForward4.relayed`, `SpecStd5Mean.same_message` | the packet's encoding is the content of `relayed m` (3.1.1), of `message_of p` (5), which conforms because every property that is kept was in the section; C63 for the exceptions |
| C75 | `SpecStream.receive` around `read`, `SpecSession.run` around `write`, on lists of the messages of `SpecStd311`/`SpecStd5` | C58 and C59 (the drivers) composed with C60/C62 (one message is read) and C74 (one message is forwarded); the MQTT 5 second reading is refuted by a counterexample |
| C76 | `Trace*.v`, generated: the text of `Src*.v` once more over `TraceBase.v`, where a call also returns what it printed (`dbg!` appends its value, every other operation nothing) | comparison with `Src*.v` function by function (`ProofTrace.v`, generated by `tools/gen_trace_proofs.py`): same result, same buffer, nothing printed (`PropTraceAll.v`, 203 functions); `PropTrace.v`: the two that print, characterised by the frame at the head of the stream, and by induction over a stream of frames |
| C77 | `SpecDemand.v`: the receiver that fetches exactly the number asked for (`pull`, `pull_all`) and the one that may fetch more (`fetches`, a relation), both over any `read` | `ProofDemand.v`: what `pull` does is determined by the verdict on the whole source (induction over the length field); for `fetches`, induction over the run with a bound that each fetch decreases; `PropDemand.v`, about the Rust text `PropSourceDemand.v`; the MQTT 5 frames that get lost, `PropDemandLost.v`; with the crate's writer or a standard peer at the other end `PropDemandPeer4.v`, `PropDemandPeer5.v` |
| C78 | `SpecSchedule.v`: a history is any list of arrivals and calls (with any limit each); every call is recorded with the buffer before and after | `PropSchedule.v`: induction over the history, one call by `g_cases` (ProofStream.v); two histories are compared by the uniqueness of the cut of a stream into frames; about the Rust text by equality of `read` on buffers below 2^63 |
| C79 | `SpecBound.v`: the largest size of the receive buffer during the requests of SpecDemand.v (`peak`, `peak_all`); the chunk receiver is that of `SpecStream.v` | `PropBound.v`: what `check` asks for is bounded by cases on its verdict; induction over calls and requests; the chunk receiver by the invariant of ProofStream.v; the unbounded MQTT 5 case by an endless run of PINGREQ behind a frame whose own answer is `InsufficientBytes`; about the Rust text by equality of `read` on buffers below 2^63 |
| C80 | `SpecBridge.v`: the translation of packets between the versions (`up`, `down`, `received`, `at_311`), which no code of the crate does but every bridge must | `PropBridge.v`: what a decoder returns is well-formed (C25, C26, by cases on `decodes_body`), the translation keeps that and changes the length of the body by -all properties / +2 at most; then the round trips C18, C19; about the Rust text by equality of `read` and `write` |
| C81 | nothing new: `check` and `read` of both versions, the histories of `SpecSchedule.v`, the receiver of `SpecStream.v` | `PropHdrOnly.v`: a relation between two executions; cases on the verdict (C02) of the one stream give that of the other, what is cut off by C08; then induction over histories, calls and chunks; about the Rust text by equality of `check` and `read` |
| C82 | `SpecPatch.v`: the message with other flags and another identifier, and the overwriting of single bytes of a buffer, by position; no code of the crate does either | `PropPatch.v`: the encodings of C12, C13 split at the place of the identifier (its distance from the start is 1 + length field + 2 + topic); flags by cases; reading by C18, C19; about the Rust text by equality of `write` |

## 3. Trusted base

* Coq 8.16.1's kernel (and `vm_compute`, used in examples and refutations).
* `Print Assumptions` of **every** theorem in MANIFEST.json answers "Closed under the global
  context": no axiom at all, neither own nor of the standard library.  (The gate also lists
  `Coq.ssr.ssrunder.Under_rel.*`: module-type fields of the ssreflect plugin library that is
  loaded with the standard library; no theorem uses them.)
* The model's faithfulness to the Rust source.  It was written function by function with line
  references; `ModelTests.v` replays the repository's unit tests on it.
* The meaning given to external code: crate `bytes` 1.1 (`Bytes`, `BytesMut`, `Buf`, `BufMut`:
  big-endian, panics when too short, appends and grows), `core`/`alloc` (`String::from_utf8`
  accepts exactly UTF-8 -- the model `utf8_ok` of it is proved equal to the scalar-value
  specification, C29 --, `str::split`, `chars`, byte-index slicing panics off a character boundary,
  formatting of integers and strings).

### What is modelled

Every function of `src/` (lib, topic, v4, v5), private ones included: framing, both `read`
functions, all packet decoders and encoders, `len` functions, all property sets
(`len`/`extract`/`write`), constructors and setters, code conversions, topic functions,
`Debug` (derived and hand-written) and `Display`.

### Fidelity of the model

The model was written by hand while reading the source.  To guard against reading errors
`tools/rust2coq.py` translates the same source mechanically (files `Src*.v`; the treatment of each Rust
construct is described in `SrcBase.v`; unknown constructs make the translator fail, skipped items are
listed at the head of each generated file: tests), and `ProofSrc*.v` prove, for all inputs, that both agree:

* `ProofSrcTop.v` `v4_read`, `v5_read`: the two `read` functions, buffer included (fuel larger than the buffer); topic functions
  (`matches_eq`: on bytes below 256); `ProofSrcBase.v`: everything in `lib.rs`; `ProofSrcV4Read.v`, `ProofSrcV5Read.v`, `ProofSrcV5Ext*.v`:
  every decoder and every `extract`, code tables;
* `ProofSrcLen.v`: every `len` (the translation panics exactly when the sum does not fit a `usize`);
* `ProofSrcV4Write.v`, `ProofSrcV5Write.v`: every `write`; `ProofSrcBuild.v`: constructors and setters.

On top of that `PropSource.v`, `PropSourceStream.v`, `PropSourceApi.v`, `PropSourceV4.v`, `PropSourceV5.v` and `PropSourceRest.v` state every property
from C01 to C63 (theorems `Cnn_source_*`; C54 is there as C67) and C66, `PropSourceRelease.v` C64 and C65, `PropStop.v`
C67, `PropWork.v` C68 and `PropLog.v` C55, C69 and C70 and `PropCompare.v` C71, `PropPort.v` C72, `PropClone.v` C73, `PropTrace.v` and `PropTraceAll.v` C76 directly about the translated text, so that their trusted base is the translator instead of the hand-written model.
The size conditions there (`blen s < 2^63`, `v4_memory p <= 2^63`) say that the data fit an address space; a packet that fits an MQTT frame
always meets the second one (`ProofSrcFits.v`).

Neither the translator nor these proofs are needed for the theorems about the model; a slip
would have to be made the same way in both to go unnoticed.  Shared and therefore trusted: the data types, the buffer primitives of `Base.v`
and the UTF-8 checker `Utf8.v` (proved equal to the definition by scalar values, C29).

### What is not modelled, or simplified

* `clone` of `Bytes` and `String` is equality of contents (`SrcClone.v`, C73); that `Bytes` shares memory is not modelled.  Derived `PartialEq` and `PartialOrd` are in `SrcEq.v` (C71), derived `Debug` is in `SrcDebug.v`, where the
  escaping that `{:?}` applies to strings is a parameter with the two laws of `SpecDebug.v`; `==` on enums and strings inside functions is
  structural equality.
* The text `dbg!` prints around the value (file, line and expression, `pkid = 258`), and the message of a panic; which values are printed and when is C76.
* Allocation failure, capacity and sharing of buffers, performance, threads (the crate has no
  shared state).
* `usize` is 64 bits wide in the model and in `Src*.v`.  C72 proves for the text of the source (`Port*.v`) that any width from 32 bits on,
  and any behaviour on overflow, gives the same results as long as the buffers are smaller than half the address space.  16-bit targets are outside: `C72_16_bits_refuted` shows what `check` does there.
* Integer overflow panics (builds with overflow checks).  Builds without are modelled separately
  (`Release.v`, `Rel*.v`, generated by `tools/gen_release.py`: the same text with machine arithmetic whose result on overflow is a
  parameter; and `Wrap*.v`, generated by `tools/rust2coq.py` from the source: the same text as `Src*.v` over `WrapBase.v`, where `+`, `-`, `<<`, `>>` wrap): C64 proves that `check`, `read`, `write` and `len` are the same there, C65 what direct decoder calls do.
* `len` functions add without range check in the model; by C64 the sums are exact for every packet that fits in memory.
* After a failed `extract` the hand-written model drops the buffer, as every caller in the crate does
  (it keeps it for `read(&mut BytesMut, ..)` and for all writers); the mechanical translation keeps it, and C67 is about the translation.
* Generic parameters (`Into<String>`, `IntoIterator`) are modelled at the value they produce.

## 4. Findings

Deviations of the code from the naive expectation, each proved:

* CONNECT written to a non-empty buffer overwrites an unrelated byte, and `write` returns the
  remaining length instead of the written size (C14, C15).
* A failed write leaves garbage in the buffer (C17).
* v5 `read` can return `InsufficientBytes(1)` *after* removing the frame (C11), so a receiver that
  follows the documentation depends on the chunking (C48).
* v5 CONNACK and DISCONNECT without properties are written but cannot be read (C39); `ConnAck::new`,
  `Disconnect::new`, `UnsubAck::new` build exactly such packets (C45).
* A DISCONNECT with an empty property set and any reason is written like another one: two
  different packets, one encoding (C21).
* v5 PUBLISH over-counts subscription identifiers when reading: too many of them make the packet
  unreadable or swallow bytes (C38); re-encoding is not stable in v5 (C28).
* Fields longer than 65535 bytes get a truncated length (C41).
* A level-4 CONNECT is written by v5 with a property section that is then read as the client id
  (C40).
* Property values may run past the declared section length (C42).
* `matches` panics on a multi-byte first character, no `$`-topic is ever matched, `valid_filter` does not check `+`
  (C30-C34); `matches("#", "+/#")` is the only exception to completeness of filter covering (C33).
* v5 acknowledgement reason errors are reported as `InvalidConnectReturnCode` (C35, C49); v5
  SUBSCRIBE/UNSUBSCRIBE without filters are accepted (C47).
* Direct calls: v4 `Unsubscribe::read` panics on inconsistent headers, v5 `Disconnect::read` accepts
  `[E0 00]` that `v5::read` refuses, no packet decoder checks the packet type (C51).
* Without overflow checks v4 `Unsubscribe::read` on such headers returns an error, `frame_length` wraps (C65).
* Across versions: SUBACK gains or loses codes, PUBLISH payload and properties are confused, a v5
  CONNECT is accepted by v4 with an empty client identifier (C53).
* The log text of SUBSCRIBE is ambiguous (C55); the log text of CONNECT shows the password (C70).
* Against the standards (C60-C63): binary passwords are refused (both versions); v4 writes a password
  without user name; v5 refuses DISCONNECT without properties and every AUTH, and reads a PUBLISH
  with many subscription identifiers with the last properties in the payload; v5 writes a CONNACK without
  property set, a CONNECT at level 4 and a PUBLISH with DUP at QoS 0 as no message of the standard, and a
  DISCONNECT with an empty property set as a normal disconnection; the lists of tolerated
  deviations are `SpecStd311.deviates` and `SpecStd5Dev.deviates`.
- **A second hop can misread** (C75, MQTT 5): the crate reads a PUBLISH with several subscription identifiers and a content type correctly when the content type comes first, but writes it with the content type after the identifiers, which the crate then misreads (C62). So two relays built on the crate in a row corrupt a message that one relay alone handles.
* On a 16-bit target `length` loses the high bits of the remaining length: `check` takes a frame for a shorter one (C72).

## 5. Tests of the theorems

`seeded/LOG.jsonl` has one line per wrong program tried on a scratch copy: the edited definition,
the edit, the claim it breaks, the theorems that no longer prove, the theorems that were added or tightened because the
edit survived.  Mutants were produced both by hand (realistic bugs) and mechanically (one edit per
definition: boundary, constant, operator, dropped statement, swapped cases).

## 6. Regenerating

`tools/gen_properties.py` writes `properties.jsonl`, `tools/gen_manifest.py` writes `MANIFEST.json`
from the `Theorem Cnn_...` statements.  Build: `cd rocq && coq_makefile -f _CoqProject -o Makefile
&& make -j4`.
* **A debugging print is left in the decoder** (C76): every MQTT 5 UNSUBSCRIBE that reaches the decoder prints its identifier on standard error (`dbg!(pkid)`, src/v5/unsubscribe.rs:45), also in release builds and also when the packet is then refused, so a peer can fill a broker's log.
* **A 3.1.1 CONNACK makes an MQTT 5 client wait for ever** (C77): read by the MQTT 5 `read`, the complete frame `20 02 00 00` gives `InsufficientBytes(1)` and is removed from the buffer. A client that does what the error says waits for a byte no broker owes it; if one comes, it is taken for the start of the next packet and the CONNACK is lost without an error (`C77_v5_takes_one_frame_refuted`).
