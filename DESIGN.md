# Formal model of mqtt-bytes-v5 in Rocq (Coq 8.16.1)

The crate encodes and decodes MQTT 5 control packets.  Its whole public API is modelled: `Packet::read`,
`Packet::write`, `check`, `FixedHeader`, the per-packet `read`/`write`/`size`, the property structures, `LastWill`,
`Login`, `Filter`, the constructors and the conversions of codes.

## Files (rocq/theories, in build order of `_CoqProject`)

| files | contents |
|------|----------|
| Types | bytes, the error enum, result type, the packet data types (records/enums of /repo/src) |
| MLib | model of src/lib.rs helpers: varint, u8/u16/u32, strings, UTF-8 check, `check`, `parse_fixed_header`, `FixedHeader` |
| MConnect MConnAck MPublish MPubAck MPubRec MPubRel MPubComp MSubscribe MSubAck MUnsubscribe MUnsubAck MDisconnect MPing | one model file per source file |
| Model | `Packet::read`, `Packet::write` |
| MDisplay | the messages of the errors |
| MEq | the derived comparisons (`==`, `<`) and `mqtt_string_new` |
| MDefault | the Default implementations of the packets and field types |
| MUsize | the size sums and writers again, with usize addition as a parameter |
| MDebug | the size sums, writers and framing again, with additions that panic on overflow (builds with overflow checks) |
| MLeft | the component readers again, with the caller's buffer also after an error |
| MCost | the readers again, with a count of their steps |
| MCostW | the writers again (with the size computations they make), with a count of their steps |
| MTopics | the topic helpers of /repo/mod.rs (not part of the crate) |
| Spec | specification: MQTT 5 encoding as lists of fields, value ranges of the Rust types, normal form. Imports Types only |
| Wire | specification: which frames are accepted and as what (a relation). Imports Types, Spec |
| Sites, Faults | specification: property sections inside bodies; which defect gives which error |
| Left | specification: what a failing component reader leaves in the buffer |
| Content, Driver | specification: sizes of decoded packets; clients of the API (write a list, drain a buffer, receive loop, fetch loop) |
| Standard | specification: MQTT 5.0 control packets as the standard describes them, independent of the crate's types |
| Lenient | specification: the list of what the reader accepts beyond the standard |
| Topics | specification: topic names, filters and matching of MQTT 5.0, section 4.7 |
| Samples | one concrete non-trivial packet per packet type, used in the examples beside the theorems |
| Cases, Cases2, Cases3, Cases4 | entry `<theorem>_case`: the theorem applied to written-out values with every hypothesis discharged (rule 3), for the theorems whose concrete case is not already beside them in the T files |
| Tests | the unit tests of /repo/src, its benchmark and the README example, run on the model (tests, no claim rests on them) |
| P*.v | lemmas |
| Link | a connection in one direction as a transition system: sender with failing writes, transport, receiver, every schedule (caller code over Packet_read and Packet_write) |
| T*.v | the property theorems (`Theorem Cnn_...`) with non-vacuity examples |

No specification file imports a model file, except Driver and Link, which are callers of the API; theorem statements mention the model only through the API functions
(`Packet_read`, `Packet_write`, `check`, `Publish_read`, ...).  The one exception is `len_len`/`length`-style helpers
in C16/C17, which are the functions those properties are about.

## Modelling decisions

* A byte / u8 / u16 / u32 / usize is an `N`; range facts are explicit predicates (`bytes_ok`, `rust_packet`).
* `Bytes`, `BytesMut`, `String`, `Box<str>`, `Cow<str>` are `list N`.  The string feature is an explicit argument `ft`
  (`F_default | F_boxed | F_cow | F_binary`); UTF-8 validity is a function (`from_utf8`, Unicode Table 3-7), proved to
  decide the specification by code points (Table 3-6).
* Results: `Ok | Err e | Panic | Diverge`.  Every partial operation of the `bytes` crate (advance, split_to, get_*,
  indexing) and the cursor additions while reading are checked and yield `Panic` when out of range (cursor additions at
  2^32, the smallest supported usize; so the result holds for 32 and 64 bit targets).  `unreachable!()`/`panic!` arms are
  `Panic`.  Loops run on fuel and yield `Diverge` when it is exhausted; the theorems exclude both.
* Readers thread the remaining `Bytes`; writers are state transformers `buf -> res A * buf`, so the bytes left behind by
  a failing write are visible, and `Connect::write`'s patch at an absolute index is modelled as such.

## Trusted base

* Coq's kernel (8.16.1), the parser/printer, and the correspondence between the definitions and /repo/src, which is by
  reading: every definition of the model cites file and lines.  The crate's own unit tests, run on the model in Tests.v
  for all four string features, are the only check of this reading in this repository; outside it the extracted
  `Packet_read` and `Packet_write` were also compared with a separate transcription of the source into Python on 245,000
  random and mutated frames (all features, several limits): outcome, bytes left and bytes rewritten agreed on all of them.
* `Print Assumptions` of every theorem listed in MANIFEST.json prints "Closed under the global context": no axiom is
  used.  (The build loads `Coq.ssr.ssrunder` transitively through `lia`/stdlib; its seven module parameters are listed by
  `vcheck` as library axioms, but no theorem depends on them.)
* The `bytes` crate is modelled by its documented behaviour on contents (append, split, advance, big-endian get/put), not
  by its code; likewise `str::from_utf8` and `Vec`.

Modelled: all functions of src/*.rs outside `#[cfg(test)]`, including the panicking arms.

Not modelled:
* memory: allocation, capacity and `reserve`, sharing between `Bytes` handles, running out of memory;
* (usize: sums are unbounded in the model of the writing side and of framing; both are modelled again with machine
  addition in MUsize (C54) and with checked addition in MDebug (C65).  The readers check their sums against 32 bits);
* time, except for the step counts of C60 and C63 (which leave out moves, tests of local variables and building values, and take
  `Bytes::split_to`, `advance` and amortised `Vec::push` as one step, and appending to the output as one step per byte: its growth is amortised);
* the derived `Clone` and `Debug` (`PartialEq` and `PartialOrd` are in MEq, `Default` in MDefault);
* the error enum of /repo/mod.rs; benches and tests (but the tests' literals are run on the model in Tests).  (/repo/mod.rs is a left-over file that no `mod` declaration of the
  crate names; its functions are modelled in MTopics and are the subject of C61, C62 only.)

## Plan per property (method)

* C01 round trip: writers equal the field encoding (`emits` lemmas), which is in the wire language (PRound), which is
  read back (PWire).  `exact`: the converse.  C02: induction over the list.  C35: from C01.
* C03: every reader returns Ok/Err: invariants on the remaining length (each loop iteration consumes a byte), cursor
  bounds (`tame` lemmas).  C04, C05, C07, C09: the outcome of framing as an inductive case analysis (`outcome`), then
  determinism.
* C06: exact characterisation from Faults.v; the naive claim is refuted.  C08: induction over chunks in a receive loop,
  with C04/C05/C07; refuted without the proviso.
* C10-C15: each writer is a list of output fields, each good or failing; first failing field decides.
* C16, C17: arithmetic on the four sizes.  C18: finite case analysis over all codes, and all 256 bytes.
* C19, C20, C22, C23, C25, C26, C28, C29, C32, C33, C36, C39: from the wire language and the fault language.
* C21, C24, C27: "first covering prefix" of a property section.
* C30, C31: C37 + C01, refutations by general witnesses.
* C34: simulation between features.  C37: per packet type, both directions.  C38: size of contents by the wire relation.
* C40: the readers on a header that does not belong to the buffer.  C41: constructors computed, then C01.
* C42, C43: fault language, both directions.
* C44, C46: the component codecs on their own.  C45: `check` against `Packet::read`.
* C47-C49: streams: induction on the number of frames; receive and fetch loops.  C50: arithmetic on the size classes.
* C51: standard frames are in the wire language; exactness by exhibiting what happens to the others.
* C52: the encoding of a packet laid out as a message of the standard; necessity by reading it back (C51 + C01) or because
  property sections are self-delimiting.
* C53: the per-body lemmas behind C37 and C42, for a header and skipped bytes of any kind.
* C54: the writing side again with `+` a parameter that is right below M (MUsize); sums below M are exact, and a successful
  write into a buffer below M bounds the sums by the bytes appended.
* C55: induction over the stream, with C01/C31 for one packet; the encoding of the normal form is the encoding of the packet,
  except for acknowledgements of success with empty properties.
* C56: the messages as strings (MDisplay); decimal numerals are injective and end at the first character that is no digit.
* C57: the component readers with the buffer as state (MLeft) against defects with leftovers (Left), as for C40/C41.
* C59: bound on each property (131075 bytes), hence on how far a section runs over its declared length, hence on the growth of
  the length field; the bounds reached by computation.
* C60: the readers with a step count (MCost), same outcomes; a budget argument (`pays`): every reader pays its steps from five per
  byte consumed plus a constant; loops by induction on the fuel, callers by induction on the run.
* C63: the writers with a step count (MCostW), same outcomes; each section, string and list costs at most three steps per byte of its
  encoding (sizes are computed at most twice); the sum over the packet, then induction over the packets sent.
* C64: invariant over the steps of the connection: the bytes under way (receiver's buffer, transport, sender's buffer) are the
  encodings of the packets sent and not yet read; then progress and a run that finishes.
* C61, C62: `split('/')` is the unique decomposition into levels; induction on the levels of the filter; for two filters,
  witnesses built level by level.
* C58: C51 for each frame, C05 for the unfinished one, C08 for the chunks; unambiguity of frames (C51) field by field.
* C65: sums in `res N` (MDebug): each is exact or panics, and panics exactly when it is M or more, by the structure of the sum; a
  writer whose body is below M agrees with the model, one whose body is not panics at its length.
* C66: sequences of connections; each is a run of C64 from the idle state, by induction over the sequence.
* C67: the derived comparisons as functions (MEq), each proved to decide equality; equality of decoded packets against their bytes from
  C35, which for PUBLISH and empty lists is proved by taking the encodings apart field by field (TAlike) instead of reading them back.
* C68: a cut by induction over the packets with C01/C05; damage with C47 (frames are read independently), C33 for the kind.
* C69: C01 in the reading build if it can hold the packet; otherwise C01 in the binary build and C22.
* C70: through the wire language (C37) for reading, with C19 for the identifier 0, and through the encoding (C13) for writing.
* C71: from an accepted body (C37) either an entry of the list (Lenient.v) or the message of the standard is built; conversely the pieces of a frame of the standard are found again in the pieces the reader saw, sections by unique decoding.
* C72: only these are read: C31; all of these: their encoding (C01), or, for the DISCONNECT of C30 and the PUBLISH of C21, another spelling in the wire language (C37).
* C73: the frames of MQTT 3.1.1 as that standard has them (Older.v), each placed in the wire language (C37) or in the table of faults (C42); that nothing else is understood: lengths of the two layouts differ.  For what is written: the encoding (C13) against the same description.
* C74: the spellings of a number in base 128 by induction on their length; the frame language (C37) and the table of faults (C42) speak of first byte and body only.

No property is classified "not applicable"; none is partial.  Theorems with the suffix `_refuted` prove that a natural,
stronger form of the property is false of the code (they are findings, not gaps).

## Findings (all proved)

1. DISCONNECT with a reason other than normal and `properties: None` is written as `E0 01 rr 00`: returns 3, appends 4,
   cannot be read back (C10, C30, C52).  With `Some(empty)` it is written as a normal disconnection.
2. A subscription identifier is counted one byte too long while reading: with several, PUBLISH properties end up in the
   payload (C21, C27, C51).
3. `InsufficientBytes` may be returned for a complete frame, after consuming it (C06); a receive loop then waits for bytes
   it does not need, and its buffer can grow without bound (C08, C49).
4. `Connect::write` patches its flags at an absolute buffer index (C12).
5. Writing a CONNACK with one of three MQTT 3.1.1 codes panics (C14).
6. A failed write leaves partial bytes (C15).
7. Leniencies of the reader: properties may run over their section, duplicates, overlong variable integers, trailing
   bytes, reserved flags, UNSUBSCRIBE without filters, packet identifier 0 (C26, C27, C32, C37, C41).
8. `max_size` limits the remaining length, not the packet size (C50).
9. Conforming frames not understood: AUTH, DISCONNECT with a reason and no property length, passwords that are not UTF-8,
   PUBLISH with many subscription identifiers (C51).
10. Where usize addition wraps, a DISCONNECT whose properties take a multiple of the address space is written as a normal
   disconnection (C54; reachable on 32 bit targets with shared `Bytes` strings).
11. The topic matcher of /repo/mod.rs panics on topics that start with a character outside ASCII and matches no topic that
   starts with `$`, not even for the filter that spells it (C62).

## Testing the theorems against wrong programs

`seeded/LOG.jsonl` records edits of the model (one realistic bug each), the theorems that no longer prove, and what was
tightened.  A mutant is run by replacing the proofs that break by `Admitted` in a scratch copy and collecting every
manifest theorem that depends on one of them, then checking for the property the edit falsifies.

`seeded/AUTO.jsonl` records edits made by a program, one at each place where it applies: a literal increased by one, a comparison
or connective replaced, a condition negated, a statement or conjunct dropped, another error, width, field, property or order of
arguments; first in the files of the model, then in those of the specification.  Each is built (without the counted and machine
copies, which would notice any edit of the model) up to the first proof that breaks.  Edits that still build are looked at by
hand; a note in the log says why they break no claim or what was done.
