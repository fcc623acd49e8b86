# Formal model of rustaceanrob/bip324

Rocq/Coq 8.16.1, standard library only. Source modelled: `/repo/protocol/src/{lib,fschacha20poly1305,handshake,io,futures}.rs`
and `/repo/traffic/src/{lib,io,futures}.rs`; as drivers of these, `/repo/fuzz/fuzz_targets/*.rs` (FuzzTargets.v) and parts of
`/repo/protocol/tests/round_trips.rs` and `/repo/protocol/benches/cipher_session.rs` (TestDrivers.v) and the example `/repo/protocol/examples/bufreader.rs` (ExampleProgram.v).

## 1. Trusted base

* Coq's kernel (`coqc`; `coqchk` is run once at the end).
* Axioms: none of our own. Every theorem in the `Props_*.v` files is followed by `Print Assumptions`; the
  expected answer is "Closed under the global context". Any exception is listed in section 5.
* The reading of the Rust source (each definition cites file and lines).
* The primitives outside `/repo` are not modelled from source (their crates are not available). They are
  parameters, gathered in the class `Env` (`Env.v`), with the laws `EnvLaws`:
  - `keystream key nonce off n`: `n` ChaCha20 keystream bytes from byte offset `off` (law: it has `n` bytes);
    `ChaCha20::seek` is taken to set a byte offset, as BIP-324's vectors require;
  - `mac key nonce aad ct`: the AEAD tag (law: 16 bytes). `ChaCha20Poly1305::encrypt/decrypt` are *defined* from
    these two: ciphertext = data XOR keystream from offset 64; decryption compares the tag first and touches the
    content only on success (RFC 8439);
  - `ecdh_xonly`, `ellswift_of`, `sk_valid`, `hkdf_extract`, `hkdf_expand` (laws: sizes). The agreement of ECDH is a
    separate hypothesis (`EcdhAgrees`), used only by the theorems that name it;
  - `overflow_checks`: whether arithmetic overflow and `debug_assert!` panic (debug) or wrap/are absent (release).
    Theorems hold for both values unless they say otherwise.
  Theorems quantify over *all* such environments, so they cannot depend on details of the primitives.
  `Rfc.v` gives one concrete environment (real ChaCha20, Poly1305, SHA-256, HKDF, secp256k1/ElligatorSwift)
  with the laws (`EnvLaws`, `KeystreamStable`) proved, which shows that the hypotheses are satisfiable by the primitives
  meant. The agreement of ECDH is proved of secp256k1 itself (C101): `FieldPrime.v` proves p prime from a Pocklington
  certificate (`tools/gen_cert.py` writes it), `Curve.v` proves the group law over any field, `RfcCurve.v` joins both to
  the functions of `Rfc.v`. The order of the group (C102): `GroupOrder.v` (written by `tools/gen_order.py`) has the evidence, `Cyclic.v` the argument
  for any abelian group, `GroupProofs.v` joins both. For how few one-time keys a Poly1305 tag can be forged (C104): `PolyPrime.v` (written by `tools/gen_poly.py`), `PolyProofs.v`. What remains is that the encoding `ElligatorSwift::from_pubkey` picks names the public key. `Vectors.v` runs BIP-324 vectors 1-5
  of the project's own test suite and a whole handshake on the model. These are tests of the model, not proofs; the
  long ones are evaluated by the virtual machine at compile time (`Eval vm_compute in`), vectors 6 and 7 (4 and 16 MB) are left out.
* The behaviour of `std::io::{Read,Write}`/tokio `AsyncRead`/`AsyncWrite` (`read`, `read_exact`, `write_all`,
  `flush`), `Mutex`, `AtomicBool`, threads, mpsc/oneshot channels and `select!` is modelled by hand from their
  documentation; see section 3.

## 2. Modelling decisions

* Bytes are `Coq.Init.Byte.byte`; slices and vectors are `list byte`; `usize`, `u64`, `u32` are `N` with explicit
  wrapping/overflow functions. `usize` is 64 bits. Fixed arrays `[u8; n]` are lists with a length hypothesis or
  a length invariant.
* A function returns `run X`: `Ret x`, or `Panic`. Functions taking `&mut self` or `&mut [u8]`
  return the new values also on `Err`, so theorems can speak about what an error leaves behind.
* Allocation never fails; addresses, timing side channels, zeroisation and `Drop` of secrets are not modelled.
* A `Read`er is a finite script of events: `Chunk bs` (data available; a read takes a prefix of it), `Fail k`
  (one error of that kind), `Pending` (only visible to async code). The end of the script is end of file.
  Theorems quantify over all scripts: whatever an implementation of `Read` (a socket, a `BufReader` around it) returns in a
  run is the script of the pieces it returned. Buffered.v has the handshake and the readers over any reader instead of a script, and
  std's and tokio's `BufReader`; C92 shows that nothing is lost by scripts.
* A `Write`r is a script of events: accept up to n bytes, fail with kind k, not ready yet; and one of flush outcomes (done,
  failed, not ready yet). After the scripts everything succeeds. Outgoing.v has the handshake and `write` over any writer, which may
  hold back what it took, and std's and tokio's `BufWriter`; C93 relates them to scripts. ShapedOut.v puts the shaped writers on top
  of it, with every call of `write` and `flush` visible (C108).
  Scripts do not panic; `Panicking.v` lets the transport of a shaped writer panic in any of its writes, after any byte (C116).
* Concurrency (traffic/io.rs) is an interleaving small-step semantics with the mutex as atomicity boundary;
  traffic/futures.rs is a transition system for the writer task with the semantics of `tokio::select!`.

* The blocking shaped writer is a schedule of moves of two threads (`TrafficIo.v`); a move is the code between two
  points where the other thread can interfere. A write under the mutex is one move. The shutdown
  flag is sequentially consistent there; `Relaxed.v` adds the loads that do not see the store yet, and C74 relates the two.
  The counters themselves (`Traffic.v`) are interleaved operation by operation.
* The shaper's random source is any `Rng` with `gen_range` in range and `fill_bytes` of the right length (`RngLaws`).
  Shaper functions return the sizes they give to `record_write`; the clock inside the recording is not in
  these transition systems (a clock before 1970 panics, see `now_ms`); `Clocked.v` adds its readings, for the writer task
  with unsplit awaits, and C75 relates the two; `ClockedTask.v` has both the readings and the awaits (C115).
* The async writer task is a sequence of events (commands, polls with a branch order and an elapsed or not elapsed
  timer, drop of the senders, drop of the task at its `select!`). Awaits inside a branch are not split there; `TrafficTask.v`
  splits them (the task can be suspended, and dropped, inside each of its three writes) and C56 relates the two.
* A session that is not split is its two halves and what borrows it: `Sessions.v` (plain) and `ShapedUnsplit.v` (shaped). What the
  borrow checker refuses is a step that does not exist.

* The handshake exists twice: in one go (`Io.v`) and cut at every `read`, `write` and `flush` (`HsSteps.v`), where a thread can
  block and a task can be suspended; C63 shows that they agree. Two endpoints are joined by two FIFO pipes that hold at
  most a given number of bytes (`SpecPipes.v`).

## 3. What is not modelled

* sockets, clock and printing of the example program; what errors of other crates print; of the tests and benches only the drivers of the library without its I/O layer are modelled (TestDrivers.v); derived `Clone`/`Copy` (a copy is the same value; C82 says what two copies of a cipher do); `no_std`/feature gates.
* Internals of secp256k1, chacha20-poly1305 and bitcoin_hashes (see above); quality of randomness.
* Memory exhaustion; whether the OS schedules fairly (a hypothesis of C76); poisoned mutexes other than as stated.
* Real time: `Duration`/`SystemTime` values are inputs; for the decoy timers, Timed.v has a clock in milliseconds that advances
  at any point (tokio's `interval` and `thread::sleep` by their documentation: never early, possibly late).

## 4. Plan per property

See the table below; the theorem names are in `MANIFEST.json`.

| id | modelled in | how |
|----|-------------|-----|
| C01 | Cipher.v | induction over the packet list; the peers share the cipher state as an invariant |
| C02, C03, C05 | FsChacha.v vs. Spec.v | closed form of key/nonce at index n, induction on n through the state machine |
| C04 | FsChacha.v | state after k steps in closed form; case split on `overflow_checks`; witness environment for the deviation |
| C06, C07, C08 | Cipher.v | unfolding of checked slice operations |
| C09, C10, C11, C12, C13, C14 | Cipher.v | case analysis on the decrypt functions; XOR involution |
| C15 | Cipher.v | unfolding; independence as a simulation over operation lists |
| C16 | Cipher.v | case analysis on the 256 bytes |
| C17–C26 | Handshake.v | window search proved against a first-occurrence specification; composition with C01 |
| C27–C32, C40 | Io.v | refinement of the chunked handshake to a pure parser of the byte stream |
| C33, C34, C36 | Io.v, Futures.v | same refinement for read |
| C35, C37 | Futures.v | invariant relating (buffered bytes ++ rest of the script) to the stream, over all poll/cancel schedules |
| C38, C39 | Io.v | induction over write scripts |
| C41, C42, C48, C49 | Traffic.v | case analysis on the random source; permutation invariance |
| C43, C44, C47 | TrafficIo.v | invariant over all interleavings |
| C45, C46 | TrafficFutures.v | invariant over all schedules; safety proof that the exit state is unreachable |
| C50 | Cipher.v/Io.v | corollary of C01 and filtering |
| C51, C52 | Futures.v | induction over polls; witnesses in the toy environment |
| C53 | Io.v, Futures.v | totality of the refinements above |
| C54 | TrafficIo.v, TrafficFutures.v | composition of C25/C29 with the invariants of C43 and C45 |
| C55 | Handshake.v | case analysis of `hs_new` and the first flight |
| C56, C57 | TrafficTask.v | simulation: completing the suspended branch maps the split task to the task of C45 |
| C58 | Io.v, Futures.v | induction over the uses; a write in progress is related to its completed form |
| C59 | Io.v | composition of C33 and C38 with the round trip of C01; induction over raw reads |
| C60 | TrafficIo.v | lock invariant of C43; measure on the moves left; poisoning is stable |
| C61 | Handshake.v, Io.v | C32's refusal composed with the derivation of both parties' keys |
| C62 | TrafficFutures.v, TrafficIo.v | simulation of the plain readers |
| C63 | HsSteps.v, SpecPipes.v | every run of the pair replayed as two runs of C27 on scripts; invariant on the four byte counts |
| C64 | Traffic.v, TrafficIo.v | case analysis of the shaper; induction over the blocks of C43 and C45 |
| C65 | Cipher.v, Io.v, Futures.v, SpecIntegrity.v | one accepted body is the packet of its number or a forgery; induction over calls, reads, polls |
| C66 | Io.v, SpecIntegrity.v | C28 gives the bytes consumed; C65 on them; the version packet is found at the sender's place |
| C67 | Sessions.v, SpecTraffic.v, SpecPair.v | C66 with the ciphers of two connections; every write encrypts one message, every shaped block one or two |
| C68 | HsSteps.v, SpecFlights.v | invariant over the operations relating the place, the bytes read and the bytes written |
| C69 | Traffic.v, TrafficIo.v, TrafficFutures.v, SpecDraws.v | invariant of both drivers with the choices made so far; lockstep simulation of two endpoints |
| C70 | Io.v, Futures.v, TrafficIo.v, TrafficFutures.v, SpecGap.v | accepted bodies embedded in the received bytes in order; lengths of the parts taken |
| C71 | TrafficIo.v, SpecDuplex.v | every number of bytes moved as a step; invariant over both directions; decoys until nothing more fits |
| C72 | TrafficIo.v, SpecFlow.v | invariant over all steps, shaping included; draining the pipe and pushing a byte at a time; C60's schedules |
| C73 | TrafficTask.v, SpecAwait.v | polls with a script of as many bytes as there is room; invariant on the packets encrypted so far; measure: queue, branch, bytes left of the packet |
| C74 | Relaxed.v, SpecRelaxed.v | simulation with the call of drop delayed until a test sees the flag; measure of moves and decoys left per test |
| C75 | Clocked.v, SpecTraffic.v | every clocked run is a run without the clock up to the move that unwinds; after it the mutex is poisoned or the task gone |
| C76 | TrafficIo.v, TrafficFutures.v, SpecFair.v | the thread gives the mutex back after at most three moves of its own; a strongly fair application cannot be passed over for ever; a cycle of four moves starves a weakly fair one |
| C77 | FuzzTargets.v, SpecHandshake.v | composition of the contracts of the handshake calls (C17-C22) |
| C78 | StatsView.v, Traffic.v | prefix sums of the merged operations (C48) |
| C79 | Float64.v, Traffic.v | error analysis of SpecFloat's rounding, conversion and division in the integers |
| C80 | SpecSecrecy.v, Cipher.v, FsChacha.v | masking the key stream at the positions of the packets (C02, C03, C05) |
| C81 | SpecSecrecy.v, FsChacha.v, Cipher.v | masking the key stream of the erased epochs (C80) |
| C82 | Cipher.v, Histories.v, SpecIntegrity.v | stream conformance (C02, C03) and integrity (C65) |
| C83 | Cipher.v, Handshake.v, HsDriver.v, SpecSecrecy.v | the handshake in a changed environment (C23) and the streams of C80 |
| C84 | Handshake.v, Cipher.v, HsDriver.v | the honest handshake (C25) twice |
| C85 | Traffic.v, TrafficIo.v, TrafficFutures.v | C43 and C64; runs with chosen draws |
| C86 | Handshake.v, Io.v, SearchCost.v | sum of an arithmetic series along the loop |
| C87 | Handshake.v, Io.v, Cipher.v | C22 and C27 on the endpoint's own stream; the tag comparison of C09 |
| C88 | TrafficTask.v, TrafficFutures.v | the names of answered, held and queued commands form one list which polls only shorten at its end |
| C89 | Handshake.v, Io.v | C25's completion on the whole half, C31's truncation on every prefix |
| C90 | ShapedUnsplit.v, TrafficIo.v, TrafficTask.v | simulation of the session by its two halves; answers of the task are never withdrawn |
| C91 | Cipher.v, Io.v, Futures.v | XOR masks commute with the key stream; then C31, C35 and C65 on the altered stream |
| C92 | Buffered.v, SpecBuffered.v | every operation over the reader is the same operation on the script of its answers; then C27, C35 and C63 on that script; a measure for termination |
| C93 | Outgoing.v, SpecOutgoing.v | every call of the writer is the same call of a scripted one; invariant on what is held back; for the finding, a BufWriter over a transport that fails once |
| C94 | Handshake.v, Io.v, SpecReplay.v | C28 for what completes; the received half of a handshake does not depend on own garbage and decoys |
| C95 | HsSteps.v, Io.v, Futures.v, SpecMemory.v | Invariant of the places of the handshake and of the reader's state; C91 for the three bytes |
| C96 | HsSteps.v, SpecPipes.v, SpecReplay.v | Invariant of both places over all runs of the pipes (MismatchProofs.v); C63 for the sizes |
| C97 | Timed.v, SpecTimed.v, TrafficTask.v, TrafficIo.v | Invariant of deadline and ticks; invariant of the last decoy and the wake-up time; the untimed model below (C56) |
| C98 | TestDrivers.v, HsDriver.v | The drivers of C25 with stops as panics; a handshake that completed stays completed with more bytes behind it |
| C99 | Errors.v, Cipher.v, Handshake.v, Io.v | Texts compared from the front and from the back; contracts of the calls (C06, C12, C17, C21, C22) |
| C100 | ExampleProgram.v, Buffered.v | One payload after the other from any faithful reader (C92) over the wire of two endpoints (C29); reads counted per fill |
| C101 | Rfc.v | Pocklington certificate for p; group law with one slope for chord and tangent; Jacobian formulas over it; of the three candidate coordinates the product is a square |
| C102 | Rfc.v | n prime by a Pocklington certificate; 2^256 G = (2^256 - n) G by a certified chain of doublings and sums; -7 is no cube, so no point has order 2; cosets counted by a code of the points |
| C103 | HsSteps.v, Io.v | the disclosure of C68 at the moment of giving up; C94 for what is left; the pair of C05 for the peer |
| C104 | Rfc.v, Cipher.v, Sessions.v | Poly1305 as a polynomial modulo a prime (Pocklington certificate, tools/gen_poly.py); the difference of two is not zero and has no more roots than its degree; eight differences of two hashes have the same remainder modulo 2^128; C65 for the session |
| C105 | Traffic.v, TrafficIo.v, TrafficFutures.v | outcomes as lists; sums over a window moved by the difference of the sizes, one payload after the other; the runs from C85 |
| C106 | Handshake.v, Io.v, Futures.v | a string that continues itself behind u is u again and again; C22 for the search, C18 for the key, C101 for the endpoints |
| C107 | Timed.v, TrafficTask.v, TrafficIo.v, Traffic.v | invariant: no deadline is in the past; induction on the outcomes, binomial recurrence |
| C108 | ShapedOut.v, Outgoing.v, Traffic.v | induction on the writes and ticks over an arbitrary prompt writer |
| C109 | Timed.v, TrafficTask.v | induction on the tosses over an arbitrary state of the task |
| C110 | Timed.v, Traffic.v, TrafficTask.v, TrafficIo.v | a potential of written and owed bytes, by induction on the events; recursion on the outcomes for the means |
| C111 | Timed.v, TrafficIo.v | invariants over the moves after the call of drop |
| C112 | Handshake.v, Io.v, Rfc.v | list of the places, C104's counts |
| C113 | Outgoing.v, HsSteps.v | simulation by C63's endpoints over transports of growing capacity |
| C114 | Outgoing.v, HsSteps.v | simulation by C63's endpoints, for which what is held back is still to be written |
| C115 | ClockedTask.v, SpecTask.v | every clocked run is a run of C56's task up to a poll at the select that unwinds; C56 for that run |
| C116 | Panicking.v, SpecTraffic.v, SpecTask.v | every run is a run of C43's or C56's writer up to the move that panics, whose bytes are a prefix of what that move writes; lock invariant and measure of C60 |
| C117 | Cipher.v, TrafficIo.v, TrafficTask.v, SpecSpent.v, SpecTraffic.v | C04's debug theorem gives a cipher all of whose encryptions panic; case analysis of each move and poll from there |
| C118 | FsChacha.v, Cipher.v, Histories.v, Io.v, Futures.v, SpecSpentReader.v | the packet counter is the number of prefixes; its well-formedness gives the converse; case analysis of a read and of a poll |
| C119 | Handshake.v, Io.v, SpecV1Peer.v | inversion of the handshake on the peer's stream; no other step has the error V1Protocol |
| C120 | Cipher.v, Handshake.v, Io.v, Futures.v, SpecErrorLists.v | inversion of each function; a call for each kind in a concrete environment |
| C121 | TrafficIo.v, TrafficFutures.v, TrafficTask.v, SpecTraffic.v, SpecErrorLists.v | invariant of all returned results over moves and polls; C41 bounds the garbage; C120's inversion of the handshake |

Properties whose statement says that the code deviates from documentation, from BIP-324 or from what a reader would
expect (C04, C07, C12, C16, C25, C27, C32, C34, C38, C46, C47, C48, C49, C51, C52, C56, C58, C60, C61, C63, C64, C68, C70, C71, C72, C73, C74, C75, C76, C77, C78, C79, C80, C81, C82, C84, C85, C86, C87, C88, C89, C90, C91, C93, C94, C95, C96, C97, C98, C99, C100, C103, C104, C105, C106, C107, C108, C109, C111, C114, C116, C117, C118, C119, C120, C121) are
proved as statements about what the code does, together with a `_refuted` theorem that negates the natural
expectation. C18, C31 and C36 state such behaviour directly.

## 5. Assumptions printed

Every theorem named in `MANIFEST.json` is followed by `Print Assumptions` in its file and answers "Closed under the
global context": no axiom at all, neither of the standard library nor of this project.

`coqchk -o` over all modules lists seven names `Coq.ssr.ssrunder.Under_rel.*` in its context summary. They are the
fields of a sealed module of the standard library's ssreflect, which is loaded through `ZifyBool` (used for `lia` on booleans).
No theorem depends on them.
