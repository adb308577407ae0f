# Formal model of meh/rust-packet in Rocq (Coq 8.16.1)

## 1. The model in one paragraph

Every non-test function of the crate that computes on bytes is transcribed,
function by function, into total Gallina functions over `list N` (a byte string
is a list of `N`, `is_bytes` says they are below 256). A panic is an explicit
outcome (`Panic`), `Result` stays data (`Ok`/`Err e`), `&mut self` becomes state
passing (`mut := bytes -> bytes * res unit`: the new bytes *and* the outcome, so
partial effects of failed calls are visible). Finalizer closures are Gallina
functions on the whole output buffer. Mutable slices are spans (position and
length) of the buffer they borrow from. Three facts that live outside the crate
are parameters of the model (record `env`) and every theorem quantifies over
them or names the one it needs: whether arithmetic overflow panics
(`overflow_checks`: debug or release profile) and whether `std::io::Cursor` keeps
its position or seeks to the end when `read_exact` hits end of file
(`cursor_eof`: `EofKeep` / `EofSeek`; std changed this), and the width of `usize`
(`target`: `Bits32` / `Bits64`).

## 2. Layout (rocq/theories)

| file | content |
|---|---|
| `Base.v` | outcomes, `env`, slices, indexing, usize arithmetic, byteorder reads and writes on Cursors (model of std / byteorder) |
| `Enums.v` | all number/enum conversions (generated from the source by `tools/gen_enums.py`, committed) |
| `Buffer.v` | `buffer::Dynamic`, `buffer::Slice` |
| `Ether.v` `Ipv4.v` `Ip.v` `Udp.v` `Tcp.v` `Icmp.v` | packets: constructors, sizes, split, accessors, setters, checksums, guards, options |
| `Builders.v` | `Finalization` and every builder |
| `Generic.v` | every builder again, over any implementation of the `Buffer` trait (generated from `Builders.v` by `tools/gen_generic.py`, committed; C63_instance proves it is `Builders.v` at the crate's buffers) |
| `Memory.v` | every builder call and `build` again, keeping the buffer's memory also when they fail (C74_outcome: the outcomes are those of `Builders.v`) |
| `Debug.v` | `impl fmt::Debug` of packets and options, as a tree of labels and values |
| `Mutable.v` | `split_mut`, `as_mut` as spans |
| `Sizes.v` | the static size bounds (`Min`, `Max`) of every type |
| `Spec.v` `SpecCalls.v` `SpecNumbers.v` `SpecBuild.v` `SpecUser.v` `SpecMut.v` `SpecEdit.v` `SpecUnchecked.v` `SpecCopy.v` `SpecFrame.v` `SpecOrder.v` `SpecSize.v` `SpecOptions.v` `SpecVia.v` `SpecProfile.v` `SpecShift.v` `SpecOwnIp.v` `SpecGeneric.v` `SpecHooks.v` `SpecReference.v` `SpecSucceed.v` `SpecCorrupt.v` `SpecForward.v` `SpecIncremental.v` `SpecMachine.v` `SpecMachineIcmp.v` `SpecReceiver.v` `SpecBlock.v` `SpecMemory.v` `SpecStore.v` `SpecRoute.v` `SpecNat.v` `SpecHost.v` `SpecDump.v` `SpecFind.v` `SpecBlame.v` `SpecShake.v` `SpecStream.v` `SpecTrace.v` | the independent specification: wire layouts from records of fields, RFC 1071 checksum on unbounded sums, receiver's test, `only_changes`, call sequences, abstract buffer, option grammar, IANA-style number tables, builder programs and the bytes they should give |
| `*Lemmas.v`, `*Proofs.v` | proofs; property lemmas are called `cNN_*` |
| `Witness.v` `WitnessProofs.v` | for each theorem `CNN_x` with hypotheses, the example `CNN_x_meets`: its hypotheses, word for word, are met by concrete packets, programs and histories (one conjunct per combination of hypotheses in the theorem) |
| `Tests.v` | the crate's own 20 `#[test]` functions as computed examples (a check of the model against the code's expectations; not counted as proofs) |
| `Props.v` | generated by `tools/gen_props.py`: the property theorems `CNN_*` alone (`exact cNN_*`), the non-vacuity examples beside them, `Print Assumptions` under each |

Reading order for a reviewer: `properties.jsonl`, `Spec*.v`, `Props.v`; then the
model files against /repo (every definition cites its lines).

## 3. Trusted base

* Coq 8.16.1's kernel (including the VM, used by `vm_compute` in examples and in
  complete sweeps of 256 / 65536 values that are then lifted to a `forall`).
* `Print Assumptions`: **every** theorem of `Props.v` prints "Closed under the
  global context": no axiom, no admitted lemma, not even one of the standard
  library. (`coqchk`, which lists axioms of all *loaded* library files, also
  reports the seven `Coq.ssr.ssrunder.Under_rel.*` module-type fields of the
  standard library's ssreflect files; they come in with `Lia`/`ZifyBool`
  imports and no theorem depends on them.)
* The transcription Rust -> Gallina, in particular the semantics in `Base.v` of:
  slice indexing and `split_at` (panic out of range), `usize` arithmetic (32 or 64 bit,
  panic or wrap), `as u8`/`as u16` truncation, `Cursor` reads/writes of byteorder
  (short reads fail with `Io`, short *writes* are partial), `Vec::resize`,
  `bitflags` (`from_bits(..).unwrap()`, `from_bits_truncate`).
* The theorems use only the specification files and the model's API functions.

### Modelled

All of `src/`: `buffer/*`, `builder.rs`, `packet.rs`, `size.rs`, `error.rs`
(five error kinds: SmallBuffer, InvalidPacket, InvalidValue, AlreadyDefined, Io),
`ether/*`, `ip/*` (v4, v6, generic), `icmp/*` (generic, echo, information,
timestamp, redirect, parameter problem, previous), `tcp/*`, `udp/*`: constructors,
`unchecked`, `Size/Min/Max`, `split`, `as_ref`, `to_owned`, accessors, setters,
checksums, `is_valid`, `update_checksum`, `checked()` guards with `Drop`,
option iterators and option accessors, `split_mut`/`header_mut`/`payload_mut`/
`as_mut`, `Debug`, builders with `with/finalizer/build`, user finalizers,
`as_packet` and `as_packet_mut` on builders.

### Not modelled, or simplified

* Generic parameters `B: AsRef<[u8]>` are instantiated with byte strings: an
  `AsRef` that returns different bytes on each call is out of scope. Likewise
  `AsPacket(Mut)` on raw buffers, which are `new`; a cloned buffer is the same
  byte string.
* Error values: the `io::Error` inside `Io` is one value; the `Nul` kind is never
  produced by the crate. Messages of errors and of panics are not modelled.
* `Debug` is the tree of names, labels and values given to `debug_struct`, not
  the text `{:?}` renders from it.
* After a panic nothing is claimed about the state, except in C75 (a panicking setter has
  stored nothing) and in C73, which models
  unwinding through a `checked()` guard (`Drop` runs, a second panic aborts). In
  the other theorems about guards a setter's panic and the abort both count as
  `Panic`. A builder is consumed by each call as in Rust, so none survives a panic;
  what a failed or panicked builder program leaves in a caller's slice is in C74.
* Memory: a `Vec` never fails to allocate below isize::MAX bytes; above it the
  growth panics. `usize` is 32 or 64 bits (16-bit targets are not modelled).
* Performance, allocation counts, thread safety (the crate has no threads or IO).
* `hwaddr::HwAddr` and `std::net::Ipv4Addr` are records of six / four bytes;
  their own parsing and formatting is not modelled. IPv6 in the crate is a stub
  (no field of it is parsed) and is modelled as such.
* Derived traits (Clone, Eq, Ord, Hash) have their mathematical meaning.

## 4. How each property is proved

* Parsing (C01-C06, C45): case analysis on the guards; statements are full
  decision tables (every outcome for every input), no hypothesis on the bytes.
* Slices, sizes, re-parsing (C07, C08, C43, C44): list algebra over `take/drop`
  plus bounds from the acceptance theorem.
* Decoding (C09): `Spec.v` builds a header byte by byte from a record of fields;
  theorem: accessor (layout f ++ rest) = field of f.
* Setters (C10-C19): one generic lemma about an in-place write (value read back,
  length kept, every index outside untouched), instantiated per field; bit-level
  masks by a complete sweep of the finite byte domain lifted with `forallb`.
* Checksums (C20-C24): loop invariant "accumulator is congruent to the exact sum
  mod 65535 and non-zero iff ...", by induction over the words; compared to
  `inet_checksum` of `Spec.v`, written on the exact unbounded sum. C24 from
  arithmetic mod 65535 on the changed byte.
* Guards (C25, C26): induction over the list of setter calls.
* Options (C27, C28): induction over the option list / number of later calls.
* Buffers (C29-C31): refinement to (earlier bytes, current layer) by induction
  over the operation list.
* Builders (C32-C41, C46): an invariant "buffer holds `pre ++ cur`" valid for both
  buffer kinds, the header of each layer as an explicit list of its fields,
  induction over the setter list, then the finalizers computed on
  `pre ++ header ++ ... ++ payload` and re-parsed. On slices (C41), an invariant
  about old memory and scattered payload bytes.
* Enums (C42): complete sweep of 256 / 65536 numbers lifted to a `forall`, case
  analysis on constructors; assigned numbers compared with `SpecNumbers.v`.
* Debug (C47): the tree computed on wire layouts; panics by case analysis.
* as_packet (C48): the builder invariant read through the parsers before `build`.
* Mutable slices (C49): spans compared with the shared slices on every buffer,
  then a generic lemma on overwriting a span.
* Editing in place (C50), call sequences (C52): invariant over the call list plus
  "last value" folds; C50 composes C25, C49 and C52.
* User finalizers (C51): the stages of `build` with arbitrary functions between
  them; for every program, a relational proof between the program with and without
  the functions (finalizer lists woven together).
* Unchecked packets (C53): every accessor on every length, no hypothesis.
* Dissection (C54): `SpecFrame.v` writes the program and, separately, the frame
  layout; equivalences for every outcome.
* Copying (C55): the accessors' values put through C33/C34/C36; the recomputed
  checksum is the stored one because `is_valid` accepted it.
* Order of calls (C56): writes to disjoint ranges commute; induction over the
  permutation. Refreshing checksums (C57): the update as an explicit function of
  the packet with its checksum zeroed.
* Size bounds of all types (C43): `Sizes.v` holds the static bounds, `SpecSize.v`
  says what being within them means.

* Loops over options (C58): an inductive grammar of option areas (`SpecOptions.v`);
  strong induction on the remaining bytes, both directions.
* as_packet_mut on builders (C59): each setter through as_packet_mut equals the
  builder's method as a function on builders, lifted to lists; arbitrary in-place
  edits by re-running the finalizers on the bytes found.

* Build profiles (C60): a relational proof: every model function is monotone from
  "checks on" to "checks off" (panic below everything), builders related up to
  finalizers that agree pointwise.

* Buffers already in use (C61, C62): a second relational proof: two runs whose
  buffers differ by a prefix stay related (finalizers shifted by its length), by
  induction over well-typed call sequences; UDP/TCP, which look at the layer
  before them, are proved directly for any such layer.

* Generic IP packet (C64): by cases on the version, from C02, C06 and C07.
* Reference semantics (C65): `SpecReference.v` gives a second, buffer-free meaning
  to builder programs (a draft of fields); a forward simulation: every draft has an
  image (buffer contents, finalizer list, flags), every call keeps it (one lemma per
  builder method, for both kinds of memory), `build` on the image is the draft closed.
* Any Buffer implementation (C63): the trait's documentation as a contract
  (`lawful`); a simulation between a run over any lawful implementation and the
  run over Dynamic, by induction over call sequences; the crate's buffers by a
  record isomorphism.

* Success (C66): `SpecSucceed.v` says, of the list of calls only (pairs of calls that
  may not follow each other, values that fit, what `build` needs), which programs
  succeed; `SucceedProofs.v` proves the equivalence by induction over the reference
  semantics of C65, shows that a compiled program is a chain of layers, and reads the
  result back with C33-C37 and C46.

* Targets (C67): the environment `env` of every theorem has, besides the profile
  and the std, the width of `usize`; `USIZE` and `ISIZE_MAX` are those of the
  environment in scope. C67 relates a 32-bit debug build with any other by the
  relation of C60: each `usize` sum, difference and `Vec` growth panics or is equal.

* Corruption (C68): `SpecCorrupt.v` numbers the bits of a message in transmission
  order and says what a burst within 16 bits is, and what a reordering of the 16-bit
  words is (a `Permutation`). A three-byte window around the burst is congruent to the
  message modulo 65535 up to a power of two, which is invertible there: so the sum is
  unchanged exactly when the 16 bits are, or flip between all zeros and all ones.
* Forwarding and answering (C69): programs of API calls (`SpecForward.v`); the sums are
  unchanged because the words are reordered (C68), the rest comes from C25, C49 and C52.
* Incremental update (C70): `SpecIncremental.v` is RFC 1624's equation 3 on 16-bit words;
  the sum of the message splits into the replaced word and the rest.
* Packets in use (C71): `SpecMachine.v` gives each packet as a record of fields with its
  payload, an assignment for every setter and a `history` function; `MachineProofs.v` and
  `FrameMachineProofs.v` (information and timestamp messages: `SpecMachineIcmp.v`,
  `IcmpMachineProofs.v`) prove that the model's calls on bytes simulate it for every history,
  layer by layer and on whole frames, and that every received packet is such a record.  Left
  out: overwriting the IPv4 payload as a whole inside a frame (it replaces the transport
  packet) and the payload of a TCP segment after set_flags.
* The receiving program (C72): `SpecReceiver.v` has the program (API calls in `res`) and what
  the RFCs accept, on the records of C71. One direction inverts the program's checks and uses
  C71's "every received frame is such a record"; the other computes the program on the bytes
  of a record. Built frames: C66 under the receiver's build, carried over by `c65_builds` (the
  reference of C65 mentions the build only for odd lengths).
* C65 on buffers already in use: `InUseProofs.v` combines C61/C63 with C65.

* Crash points (C73): a block is an inductive tree of calls whose continuation
  depends on the result; by induction on it, its effect is that of the list of
  calls it made followed by drop, so that C25 applies; for TCP an invariant on
  the data offset shows when drop or a setter panics.

* The caller's memory after a failure (C74): the builder calls are modelled again
  as functions to (buffer left, outcome); an invariant (bytes in use bounded by the
  headers added, the memory behind them unchanged, finalizers keep lengths) is
  carried through every call, failing or not. The exact effect of a failing call
  uses the builder images of C65; reuse of the memory follows from C65_slice.

* Setters on unchecked packets (C75, sizes in C53): each setter is computed on an
  arbitrary byte string by cases on whether the split succeeds (C53) and on how
  much of the field fits; frames of setters compose over guards and blocks (C73's
  block semantics) by induction on the block.

* Routes (C76): the router and the answering host are programs over the modelled API
  (SpecRoute.v). One router is computed on the frame's fields with the simulation lemmas
  of C71 (the guard, the two station setters); the route is an induction over the list
  of routers, with "IPv4, header adds up, checksum not 65535" as its invariant. The
  built frames are put into the record form and the sender's own bytes (C33, C34, C36)
  compared with it. Any bytes reduce to the record form by C71_frame_received.

* Address translation (C77): the translator's programs (rewrite the header, then the transport
  packet under it; the reverse order; out, answer, in) are programs over the modelled API
  (SpecNat.v), computed on the frame's fields with the simulation lemmas of C71. That a receiver
  accepts the result follows from C25 and the receiver's test (C21, C22); the "wrong order" theorem
  is an equivalence on one's complement sums. It shows
  that checked(&header) sums up under the header as it is at that moment, so callers must rewrite
  the address first, and that a translator which does not test a packet first gives a damaged
  packet a right checksum.
  AnyNatProofs runs the same simulation with the sum each library computes (`set_on`), which
  with `seen_alike` decides acceptance for datagrams of any length under any two libraries.
* Hosts (C78): the ping host and the UDP echo service are programs over the modelled API
  (SpecHost.v) on arbitrary bytes. C72 decides when the receiving part says yes and gives the
  record of the frame's fields; reading destination, kind and port is computed on that record;
  the answers are those of C69/C76. The exchange between two services is an induction on the
  number of rounds with the two frames as the invariant.
  AnyServiceProofs drops the condition on the length: swapping addresses and ports keeps every
  16-bit word before the payload, so each library computes the same sum over the answer as over
  the query (`seen_after`), and receivers agree on both without knowing the right checksum.

* Printing captures (C79): `SpecDump.v` writes the sniffer and, separately, the frames that
  crash it, in terms of their bytes. Every option area is split into well-formed pieces and a
  tail (induction over its length); the loop walks the pieces (C58's tables), the tail decides.
  The layers are composed from C47, C54 and C08. Looping is `None` in the result, so
  termination is part of the statement.

* Looking options up (C80): `SpecFind.v` writes the lookup loop and a table of outcomes in
  terms of the bytes of the option area. Each row of the table is computed after walking the
  well-formed options before it; the rows are exhaustive (C79's split of an area, cut at the
  first option with the wanted number) and their outcomes differ, so each row is an "exactly
  when". That the endless loop is endless follows because a result, once given, is kept for
  every larger number of calls.
* ICMP errors (C81): `SpecBlame.v` writes the two programs, the layout of an error message
  that quotes a datagram cut after any number of bytes, and `names` (what the quoted bytes
  say). Each program is first computed on every byte string as one chain of tests; the
  "exactly when" statements, totality, agreement and the two theorems about datagrams on the
  wire follow.

* Opening a TCP connection (C82): `SpecShake.v` writes the segment, `send` and `receive`
  (the builder chain of C34 and the receiver of C72 with the accessors), the steps of a way
  (C76's router, C77's translators), what each should do to a segment, and the client's and
  server's decisions. `good` (a frame the receiver accepts) holds of what is sent and is kept
  by every step, which also does to the segment what it should and lowers the TTL by at most
  one, by induction over the way; the handshake follows from three such legs. What each
  program does on arbitrary bytes follows from C72's "exactly when".

* A TCP stream (C83): `SpecStream.v` writes sender, receiver and what the network may deliver
  (an inductive relation that labels each frame with the segment it is a whole copy of).
  A whole copy is a `good` frame (C82) with the right fields; damage is seen because one
  changed byte changes one of the two sums, and a changed header length shifts words from
  one sum to the other while 256k and 4k, the two effects of a change by k, never agree
  mod 65535. The stream theorem is an induction over the arrivals with the number of chunks
  taken so far as the state; sequence numbers of different chunks differ because the stream is
  shorter than 2^32.

* Finding the way (C84): `SpecTrace.v` writes the error a router sends (the echo builder and then
  the type, code and checksum written over what it built: the crate has no builder for
  errors), the path as a list of stations with a host behind, and the tracer's loop; `error_about`
  says with RFC 792's layout (C81's `error_message`) what an error must be. `exchange_on` is an
  induction over the path with any TTL: the station the TTL ends at reports on the frame as
  it saw it (`travelled`, C76), and the report, a frame the routers take, travels back. The
  tracer's list is then an induction over its tries, for any TTL to start from.
  `seen_alike` says when the tracer's and the host's standard library sum a payload alike
  (`alike`), so that C84_trace and C84_trace_silent divide all cases between them.
  C72_built_udp_alike (AlikeProofs) is the same for whatever calls made the datagram.

No property was found inexpressible. Properties the code violates are stated as
what exactly holds (an "exactly when"), with a `_refuted` theorem giving a
concrete witness against the naive claim; the English in `properties.jsonl` is
the exact claim, so these count as proved.

## 5. Deviations of the code found (each is a theorem)

| # | finding | theorems |
|---|---|---|
| 1 | IPv4 IHL < 5 and TCP data offset < 5 are accepted; `options()` then panics, setters fail or panic, `payload_mut()` overlaps header fields | C02_v4_new_iff, C04, C08, C12, C13, C49_v4_short_header_refuted |
| 2 | `ip::Packet::new` / `v6::Packet::new` panic on empty input | C06 |
| 3 | IPv4 `flags()` panics when the wire's MF bit is set; the reserved bit is reported as MORE_FRAGMENTS | C08_v4_accessors_total_refuted, C09_v4 |
| 4 | IPv4 `set_ecn` mask corrupts DSCP / keeps stale ECN bits | C14 |
| 5 | IPv4 `set_flags` writes unshifted and clobbers the offset, `set_offset` clobbers flags and does not check its range | C15 |
| 6 | TCP `set_flags` zeroes the data offset: builders fail or panic afterwards, checked guards always panic on drop | C16, C26, C35 |
| 7 | information/timestamp `make_request`/`make_reply` write Echo types | C18 |
| 8 | UDP checksum 0 is not mapped to 0xffff; odd lengths are wrong (UDP) or panic (TCP) where `Cursor` seeks on EOF; TCP overflows u32 from 131066 bytes; `is_valid` refuses a stored 0xffff; UDP sums bytes behind its length field | C20-C22 |
| 9 | ICMP checksum ignores an odd last byte and is 0 for an all-zero message | C23, C24_icmp_odd_refuted |
| 10 | information/timestamp guards do not cover trailing bytes | C25 |
| 11 | option iterators: truncated option panics; oversize length is an endless error; length 0 panics or loops forever; one-byte option's payload is the rest of the area | C27, C28 |
| 12 | `buffer::Slice::more` on a non-empty layer moves the offset; payloads on slices leak old memory or panic; Dynamic truncates earlier layers when sizes overflow in release | C29-C31, C41 |
| 13 | IPv4 builder's own payload is counted into IHL (right only below 4 bytes; may hit `unreachable!`) | C37 |
| 14 | bare UDP/TCP builders always panic | C39 |
| 15 | length fields wrap silently mod 65536 | C40 |
| 16 | `payload::Max` is not an upper bound (IPv4, TCP, Ethernet, options), `Min::min()` not a lower bound for ICMP error messages | C43 |
| 17 | `as_ref` panics on packets accepted only by `no_payload` | C07 |
| 18 | header() of timestamp / parameter problem / previous is shorter than the size reported | C07, C49 |
| 19 | Debug: ether labels swapped, UDP length shown as "checksum", timestamps show payload bytes, IPv4 with MF panics | C47 |
| 20 | as_packet of builders: empty payload for IPv4/UDP, TCP after flags() shows the whole segment as payload, echo readable before its kind is chosen | C48 |
| 21 | make_request/make_reply through an echo builder's as_packet_mut do not count: build() fails with InvalidPacket | C59_echo |
| 22 | `buffer::Slice` breaks the trait's documented contract: `more` on a non-empty layer moves it | C63_slice_refuted (see also C29) |
| 23 | UDP `is_valid`/`update_checksum` sum the whole buffer, not the datagram the length field delimits | C21_udp_trailing, C21_udp_trailing_refuted |
| 24 | a guard's drop that panics aborts the process when the block panics: TCP after set_flags (any further setter but set_source, or any user panic), odd TCP lengths, IPv6 parents | C73_tcp_flags, C73_tcp_call_after_flags, C73_tcp_odd, C73_v6_parent |
| 25 | a receiver written with the crate refuses UDP datagrams without checksum and panics on odd TCP segments (std with seeking Cursor) | C72 |
| 26 | a builder given a payload on a `Slice` writes behind the packet it returns; when it panics the memory behind its header has changed | C74_payload_refuted, C74_payload_example |
| 27 | on unchecked packets shorter than their header, payload_size of Ethernet, ICMP, echo and TCP wraps in release; a setter at the end of the buffer stores half a field and returns Err(Io) | C53_sizes, C75 |
| 28 | printing a capture with {:?} can be crashed from outside: any fragment but the last, any ICMP error quoting one, and option areas ending in a kind byte or holding a zero length | C79_panics |
| 29 | looking an option up: an option of length zero before the wanted one hangs a release build; a wanted option of length one yields the rest of the option area as its data | C80_tcp_hangs, C80_v4_hangs, C80_tcp_find |
| 30 | packet() on an ICMP error refuses (SmallBuffer) every quote cut short of the datagram's total length, which RFC 792's 64 bits of data nearly always are | C81_udp, C81_tcp, C81_example |
| 31 | a checked guard writes a fresh checksum without looking at the old one: data damaged before a translator are received as if they had been sent | C83_translator_refuted |
| 32 | the crate builds echo, timestamp and information messages only: an ICMP error has to be written over one of these, by index (its `as_mut`), the checksum last | C84_report |
| 33 | of two programs built with different std (`Cursor` seeking on EOF or not) neither takes the other's odd UDP datagrams unless the last byte is zero | C72_built_udp_alike, C77_udp_alike, C84_trace_silent |

## 6. Testing the theorems

`seeded/LOG.jsonl` records the wrong programs tried (edits of the model in a
scratch copy, rebuilt), which theorems failed and what was tightened.
