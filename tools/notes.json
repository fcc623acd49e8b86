{
 "C01": {
  "note": "All key materials, roles, histories; all environments."
 },
 "C04": {
  "note": "Debug: panic at packet 2^32. Release: exact prefix given; _refuted theorem shows deviation from BIP-324 (witness environment)."
 },
 "C05": {
  "note": "Nonces are those the cipher state uses before each packet; length positions for the first 2^32 packets."
 },
 "C07": {
  "note": "The code misbehaves; proved for all oversize contents, plus refutation of the natural expectation."
 },
 "C12": {
  "note": "decrypt_to_vec misreports inputs shorter than 16 bytes; proved exactly, documented behaviour refuted."
 },
 "C16": {
  "note": "The code deviates from the BIP for 127 header values; proved."
 },
 "C18": {
  "note": "Exact condition; the refutation records that an honest V2 peer can be mistaken for V1."
 },
 "C20": {
  "note": "Assumes the ECDH agreement law EcdhAgrees of the secp256k1 primitive."
 },
 "C21": {
  "note": "Layout stated against SpecHandshake.v for up to 2^32-2 decoys."
 },
 "C25": {
  "note": "Assumes EcdhAgrees. Terminator-in-garbage exception stated exactly; refutation shows it is real."
 },
 "C26": {
  "note": "In builds with overflow checks: fewer than 2^35 bytes of handshake data (u32 chunk counter, see C04)."
 },
 "C27": {
  "note": "Streams up to the first error or close; Interrupted excluded for the synchronous driver, where the refutation shows that it matters."
 },
 "C28": {
  "note": "For every script, including errors and interruptions."
 },
 "C29": {
  "note": "Assumes EcdhAgrees; healthy writers; garbage free of the own terminator (see C25)."
 },
 "C30": {
  "note": "Deadlock freedom stated as: if each side received exactly what the other wrote, both completed. Assumes EcdhAgrees."
 },
 "C31": {
  "note": "Refutation: RetryV1 is also suggested when an established V2 session ends."
 },
 "C32": {
  "note": "Handshake refuses before allocation; established synchronous sessions do not, refuted for those."
 },
 "C34": {
  "note": "Exact loss for every cut; resumability refuted; tokio reader shown to keep the part."
 },
 "C36": {
  "note": "One read of both readers on the same stream; the result satisfies the hypotheses again, so it iterates."
 },
 "C38": {
  "note": "Refutation: an Ok write after a failed one is never read by the peer, however often it reads."
 },
 "C51": {
  "note": "Refutation of cancellation safety with a witness environment."
 },
 "C52": {
  "note": "Proved between packets, refuted inside packets."
 },
 "C53": {
  "note": "Bounds on the counters only in builds with overflow checks (see C04)."
 },
 "C41": {
  "note": "The random source is any function whose gen_range stays in its range and whose fill_bytes fills the buffer."
 },
 "C42": {
  "note": "Both drivers; the shaped handshake equals the plain one as a function."
 },
 "C43": {
  "note": "Schedules over an interleaving model with the mutex; a write is one step under the lock. Atomics sequentially consistent."
 },
 "C44": {
  "note": "At most five further moves of the thread; a moving thread is never stuck, so join returns."
 },
 "C45": {
  "note": "select! with random branch order and disabled branches; awaits inside a branch are not split (only the task uses writer and shaper)."
 },
 "C46": {
  "note": "Exit is unreachable from every schedule; refutation of the comment at futures.rs:247."
 },
 "C47": {
  "note": "The swallowed error for every failure point inside a decoy; undeliverability shown by witness for both drivers (the general claim would need authenticity of the MAC)."
 },
 "C48": {
  "note": "Interleavings of the individual atomic operations of any number of threads. The stored time need not be the latest (refuted)."
 },
 "C49": {
  "note": "Recording precedes the write; refutation shows failed writes are counted."
 },
 "C54": {
  "note": "Assumes EcdhAgrees. Garbage containing its own terminator is the exception stated in C25."
 },
 "C55": {
  "note": "Validity of a secret key is the abstract predicate sk_valid of the environment."
 },
 "C56": {
  "note": "At most 2^31 events where overflow checks are on; payloads whose accessors do not panic."
 },
 "C57": {
  "note": "Transport without failures; contents the peer's reader accepts."
 },
 "C58": {
  "note": "The asynchronous statement is about sequences of uses the borrow checker allows: one future at a time. Dropped writes are the exception (refuted without it, as in C51)."
 },
 "C59": {
  "note": "Blocking reader; the asynchronous reader's into_inner is C52. Buffers of size 0 are left out of the raw reads."
 },
 "C60": {
  "note": "Schedules over the interleaving model of C43; bounded waiting refuted."
 },
 "C62": {
  "note": "The clock inside record_read is not in the model (C48)."
 },
 "C61": {
  "note": "Assumes EcdhAgrees; garbage that contains its own terminator early is excluded as in C25. The refutation is the theorem at a decoy of 4000000 bytes."
 },
 "C64": {
  "note": "The overhead bound is for transports that work; sessions of either driver reach it through C43_blocks and C45_in_order. Write and flush calls are what an observer below the library sees."
 },
 "C63": {
  "note": "Assumes EcdhAgrees; garbage that contains its own terminator early is excluded as in C25. HsSteps.v cuts the handshake at every transport call; C63_steps shows it is the handshake of Io.v."
 },
 "C65": {
  "note": "Unforgeability of Poly1305 is not assumed: the forgery is the other side of a disjunction. C65_bytes needs the receiver to be in step with the sender in both ciphers, C65_reads and C65_polls only in the packet cipher."
 },
 "C66": {
  "note": "Assumes EcdhAgrees. The keys themselves are not authenticated in BIP-324; altered keys are outside this statement."
 },
 "C67": {
  "note": "The keys themselves are not authenticated by BIP-324: the attacker is assumed to pass the two 64-byte keys on. The schedule of a blocking shaped writer ends with the mutex free."
 },
 "C68": {
  "note": "The moments are the write, flush and read calls of HsSteps.v, which C63_steps shows to be the handshake. Decoys: fewer than 2^32 - 1."
 },
 "C69": {
  "note": "For payloads whose contents can be read (all but an empty Decrypted one) and fewer than 2^32 packets. The schedule of a blocking writer ends with the mutex free. Time is not in the model: that the ticks do not depend on the data is assumed."
 },
 "C70": {
  "note": "The reader's packet cipher is in step with the writer's before the first message; C25, C29 and C66 provide that after a handshake. Writes are whole calls; abandoned asynchronous writes are C51."
 },
 "C71": {
  "note": "One thread per application, which writes and reads in turn; the case of a reading thread is C72. 'Can go on to its end' and not 'comes to its end': scheduling is not assumed fair, and the decoy thread never ends. Padding is off in the positive statement; the drawn padding would only add to what the transports must hold."
 },
 "C72": {
  "note": "Fewer than 2^32 - 8 packets. 'Can return' and not 'returns': scheduling is not assumed fair. Behind into_split the two directions share nothing but the statistics, so one direction is the general case."
 },
 "C73": {
  "note": "Fewer than 2^32 packets. 'Can come': fair polling is not assumed. The transport flushes at once and never fails."
 },
 "C74": {
  "note": "Staleness is that of one location stored to once (coherence); everything else the threads share is ordered by the mutex and by join."
 },
 "C75": {
  "note": "Fewer than 2^32 packets. The awaits inside the writer task are not split here; C115 splits them."
 },
 "C76": {
  "note": "Transport calls return (a transport that blocks for ever is C71, C72 and C73). The task's awaits are not split here; see C56 for them."
 },
 "C77": {
  "note": "The keys StdRng gives for the fixed seeds are not computed: their validity is a hypothesis. Agreement of ECDH is a hypothesis for the outcomes of receive_garbage."
 },
 "C78": {
  "note": "Refutations: the pair is not a snapshot; default() does not count the idle time from the creation as documented."
 },
 "C79": {
  "note": "f64 is the binary64 of the standard library's SpecFloat (definitions only), rounding to nearest, ties to even. Refutation: for counters above 2^53 a ratio of 1 can hide that less was written than read."
 },
 "C80": {
  "note": "Confidentiality in the sense of perfect secrecy relative to an unknown key stream: that ChaCha20 looks like one is not modelled. The key streams of the toy and of RFC 8439 are shown to split as required. Refutation: without the hypothesis that the keys differ, messages of equal length can be told apart."
 },
 "C81": {
  "note": "That the overwritten key is gone from memory is not modelled. The receiver is in the same state (C01). Refutation: up to 223 messages already sent are exposed by the state."
 },
 "C82": {
  "note": "Clone copies keys and counters; nothing in the types prevents both values from being used. Refutation: the hiding of C80 fails for copies."
 },
 "C83": {
  "note": "Whether ChaCha20, Poly1305, HKDF and the ElligatorSwift encoding look random is not modelled; as in C80 the length keys of the direction have to differ from the packet keys. Extends C80_any_stream to the handshake."
 },
 "C84": {
  "note": "Complements C66 and C67, which need the peer's key to arrive. Nothing in the library compares session ids. Refutation: both endpoints complete with different session ids."
 },
 "C85": {
  "note": "C64 shows what somebody learns who sees the single writes. Decoys that are on widen the window by 1023 bytes for each one sent (C64_overhead). Refutation: payloads of 0 and 1024 bytes."
 },
 "C86": {
  "note": "SearchCost.v repeats the loop of Io.v with a record of the buffers; C86_recorded shows that leaving out the record gives the loop. Cost is counted in comparisons of 16-byte windows. Refutation: 4096 comparisons are not enough."
 },
 "C87": {
  "note": "The single exception of the first step is an own key that begins with the network magic (C18). Refutation: receive_key does not refuse the endpoint's own key."
 },
 "C88": {
  "note": "patient writes down what &mut self gives: every earlier write has returned. Refutation: there is no bound on the channel. What is sent of the abandoned commands later is C57."
 },
 "C89": {
  "note": "The counter limit of C04 applies if overflow checks are on. Refutation: there is no bound. The application has to limit the time of Protocol::new itself."
 },
 "C90": {
  "note": "Refutation: one borrow at a time does not bound what is held for the writer by one command, since the future of a write may be dropped and its command stays."
 },
 "C91": {
  "note": "BIP-324 accepts this for the length; the size allocated before is C32's. Refutation: an altered length is not noticed at once."
 },
 "C92": {
  "note": "Makes scripts stand for every reader. The asynchronous statement asks that the counters do not overflow, as C35."
 },
 "C93": {
  "note": "Makes writer scripts stand for every writer."
 },
 "C94": {
  "note": "Key generation is outside the model; new_with_rng takes the generator from the caller."
 },
 "C95": {
  "note": "Counted are the sizes the buffers are allocated with. Not counted: the temporary 256 bytes, the garbage buffer that stays in scope behind the handshake's garbage phase (at most 4366), the plaintext of a packet while it is opened, and what the endpoint sends."
 },
 "C96": {
  "note": "Whether the terminators coincide is up to the hash functions, so the theorem assumes they do not; that the keys are derived from different inputs is part of the statement (keys_of). The V1 check of the key is assumed to pass. A transport closed by the peer, or a timeout of the caller, is what ends the wait."
 },
 "C97": {
  "note": "tokio's interval with its default MissedTickBehavior::Burst and thread::sleep are modelled by their documentation (ready at the deadline or later, never before; the next deadline one period after the last one); the 5 ms tolerance inside tokio changes nothing for Burst. The times are those at which the shaper makes the decoy, not those at which its bytes leave."
 },
 "C98": {
  "note": "The tests that go through Protocol or ShapedProtocol are sessions of the I/O models and not repeated. regtest_handshake is modelled up to its CipherSession; the messages behind it go through the bitcoin crate. The honest peer of the client is the driver of C25."
 },
 "C99": {
  "note": "What secp256k1, hkdf, chacha20_poly1305 and std::io print is a parameter; their own sources are taken as absent. send_key and send_version take the handshake by value, so that trying again needs a size asked for beforehand or a new handshake; the theorem speaks of the values."
 },
 "C100": {
  "note": "Sockets are scripts and writers; listening, connecting, the clock and the printing are left out. Reads are polls of the transport. Keys whose encoding starts with the network magic are excluded as in C25."
 },
 "C101": {
  "note": "The curve functions are those of Rfc.v, written from BIP-324 and SEC 2, not the code of libsecp256k1. That every point has an encoding, and that the encoder finds one, is not shown: a key counts as valid if its encoding names the public key. The order of the group is not used."
 },
 "C102": {
  "note": "About the functions of Rfc.v, not the code of libsecp256k1. The number of the curve's points is not taken from Hasse's theorem: at most 2p + 1 points, a subgroup of prime order n with 2p + 1 < 3n and no point of order 2 leave no room for another coset. How hard it is to compute a discrete logarithm is no part of it."
 },
 "C103": {
  "note": "What a second call can do; the documentation says only that it is not safe. A coincidental terminator and tag is not excluded, but said to be what completing takes."
 },
 "C104": {
  "note": "About Poly1305 and ChaCha20 as written in Rfc.v, not the code of the crate. It counts keys; that an attacker cannot do better than guess the one-time key, which comes from ChaCha20, is the assumption left."
 },
 "C105": {
  "note": "Each outcome of gen_range counts the same; that the generator is uniform and unpredictable is rand's. The observer gets the count of every payload separately; one who sees less is covered, since a test may ignore part of it. The separate writes of padding and payload (C64) are not part of the view."
 },
 "C106": {
  "note": "It counts strings; that keys and terminators are spread evenly over them is an assumption about ElligatorSwift and HKDF."
 },
 "C107": {
  "note": "A punctual task or thread is the ideal case; delays of the scheduler blur the grid, and C97 says what holds with them. Each outcome of gen_range counts the same."
 },
 "C108": {
  "note": "What the operating system makes of two writes shortly after each other (one segment or two) is outside the model; the statement is about what the library gives it, and when. The async task has an await between the two packets."
 },
 "C109": {
  "note": "The coin is the random branch tokio::select! starts with; that it is even, and that tosses are independent, is read from its documentation and not modelled. Polls of the task are given; one in which neither branch is ready changes nothing."
 },
 "C110": {
  "note": "The means count the writer's own draws as even: which decoys there are by the draws out of 100 and their sizes by the draws out of 1024, each list of draws once. That the generator gives them so is not modelled. The bytes of the handshake come on top (C64)."
 },
 "C111": {
  "note": "Time passes only where the schedule says so: a write of the last decoy that blocks (C72) makes drop take longer, as the second claim's assumption says."
 },
 "C112": {
  "note": "That keys of different sessions are independent is an assumption on HKDF and ECDH that is not part of the theorem; it counts keys."
 },
 "C113": {
  "note": "The transport between the two is unbounded here; C63 bounds it."
 },
 "C114": {
  "note": "Both directions have the same capacity, as in C63."
 },
 "C115": {
  "note": "Fewer than 2^32 packets."
 },
 "C116": {
  "note": "Fewer than 2^32 packets. The transport does what its script says until it panics; the runtime catches the panic of the task, as tokio does by default."
 },
 "C117": {
  "note": "Only with overflow checks; in a release build the counter wraps (C04). The task is at its select!; inside a branch it first finishes the packet it is writing."
 },
 "C118": {
  "note": "Only with overflow checks; in a release build the counter wraps on both sides (C04)."
 },
 "C119": {
  "note": "Pairs with C18, which is about receive_key alone, and C31, about streams that end early."
 },
 "C120": {
  "note": "Pairs with C12, which says when the size errors occur, and C99, what the texts say."
 },
 "C121": {
  "note": "Pairs with C120, the errors of the plain functions; C116 and C117 say when the task ends by a panic."
 }
}