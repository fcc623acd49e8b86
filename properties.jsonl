{"id": "C01", "title": "Packets round-trip for every history", "statement": "Take two CipherSessions built from the same key material with opposite roles. If one side encrypts any sequence of packets (any contents shorter than 2^24 bytes, any packet type, any associated data) and the other side, in the same order, decrypts each length prefix and then each packet body with the same associated data, then every announced length is right, every decryption succeeds, and the sequence of packet types and contents received is exactly the sequence sent. This holds across any number of automatic re-keyings.", "quantifier": "every key material, both roles, every finite sequence of (contents, type, aad), every length of history (in debug builds: fewer than 2^32 packets)", "why_tests_cant": "Tests run a few hundred packets of fixed size; the claim is about every sequence of packets and every re-key boundary.", "anchors": ["protocol/src/lib.rs: OutboundCipher::encrypt, InboundCipher::decrypt_packet_len, InboundCipher::decrypt", "protocol/src/fschacha20poly1305.rs: FSChaCha20, FSChaCha20Poly1305"]}
{"id": "C02", "title": "Every packet body is the BIP-324 packet", "statement": "The n-th packet a session encrypts has as body exactly the ChaCha20Poly1305 encryption, of header byte followed by contents, under the key of re-key epoch n/224 and the nonce LE32(n mod 224) || LE64(n / 224), where epoch keys are chained by encrypting 32 zero bytes under nonce FFFFFFFF || LE64(epoch); the associated data of earlier packets has no influence on later keys.", "quantifier": "every initial key, every packet index below 2^64, every history of contents/types/aad before it", "why_tests_cant": "The published vectors cover seven indices; conformance is claimed for every index and every preceding history.", "anchors": ["protocol/src/fschacha20poly1305.rs: FSChaCha20Poly1305::nonce, rekey, encrypt, decrypt", "protocol/src/lib.rs: OutboundCipher::encrypt"]}
{"id": "C03", "title": "Every length prefix is the BIP-324 length encryption", "statement": "The length prefix of the n-th packet is LE24(contents length) XORed with bytes 3(n mod 224) .. 3(n mod 224)+2 of the ChaCha20 keystream under the length key of epoch n/224 and nonce 0^4 || LE64(n/224), where the next epoch key is keystream bytes 672..703, for every n below 2^32.", "quantifier": "every initial key, every n < 2^32, every history", "why_tests_cant": "A test can only compare a handful of prefixes with vectors.", "anchors": ["protocol/src/fschacha20poly1305.rs: FSChaCha20::crypt", "protocol/src/lib.rs: OutboundCipher::encrypt, InboundCipher::decrypt_packet_len"]}
{"id": "C04", "title": "Behaviour when the 32-bit length counter is exhausted", "statement": "A session in a debug build can encrypt exactly 2^32 - 1 packets; the next encrypt panics. In a release build the 32-bit chunk counter wraps to zero in the middle of a re-key epoch, so from packet 2^32 on the length prefix no longer is the one BIP-324 prescribes, although two peers both running this library stay in step with one another.", "quantifier": "every key, every history of 2^32 - 1 packets", "why_tests_cant": "No test sends four billion packets.", "anchors": ["protocol/src/fschacha20poly1305.rs: FSChaCha20::crypt, FSChaCha20::chunk_counter"]}
{"id": "C05", "title": "Nonces and keystream positions are never reused", "statement": "Within a session direction no two packets use the same packet-cipher nonce, no packet nonce equals any re-keying nonce, re-keying nonces are pairwise distinct, and no two length prefixes (nor a length prefix and the re-key bytes) of one epoch share a keystream byte.", "quantifier": "every pair of packet indices below the counter limits", "why_tests_cant": "Quantifies over all pairs of packets of arbitrarily long sessions.", "anchors": ["protocol/src/fschacha20poly1305.rs: FSChaCha20Poly1305::nonce, rekey, FSChaCha20::crypt"]}
{"id": "C06", "title": "encrypt buffer contract", "statement": "encrypt succeeds if and only if the output buffer has at least contents+20 bytes; otherwise it reports BufferTooSmall with exactly contents+20 and changes neither the buffer nor the cipher. On success it overwrites exactly the first contents+20 bytes of the buffer, and leaves every later byte as it was.", "quantifier": "every cipher state, contents, buffer size and prior buffer contents, type and aad", "why_tests_cant": "All buffer sizes and prior buffer contents.", "anchors": ["protocol/src/lib.rs: OutboundCipher::encrypt, encryption_buffer_len, encrypt_to_vec"]}
{"id": "C07", "title": "Contents of 2^24 bytes or more are sent but mis-framed", "statement": "There is no upper size check on encrypt: for contents of 2^24 bytes or more it returns success, but the length prefix announces the size modulo 2^24, so the receiving side asks for the wrong number of bytes. The natural expectation 'whatever encrypt accepts the peer can read' is therefore false exactly from 2^24 on.", "quantifier": "every contents with length >= 2^24, every cipher state in step with the peer", "why_tests_cant": "Tests stop at 4 MB; the statement covers every oversize length.", "anchors": ["protocol/src/lib.rs: OutboundCipher::encrypt (plaintext_length as u32).to_le_bytes()[0..3]", "protocol/src/io.rs: ProtocolWriter::write"]}
{"id": "C08", "title": "decrypt_packet_len is total, bounded and exact", "statement": "For every three received bytes decrypt_packet_len returns a value between 17 and 2^24+16; when the bytes are the prefix the peer produced for contents of n < 2^24 bytes at the same position it returns exactly n + 17, the number of bytes that follow on the wire. It advances only the length cipher.", "quantifier": "every cipher state and every 3-byte input", "why_tests_cant": "16.7 million prefixes times every cipher state.", "anchors": ["protocol/src/lib.rs: InboundCipher::decrypt_packet_len"]}
{"id": "C09", "title": "Only the authentic packet is accepted", "statement": "decrypt succeeds exactly when the received tag equals the MAC, under the current key and nonce, of the given associated data and the received ciphertext. Consequently, anything that is accepted is bit for bit the packet body that the peer's synchronised cipher would produce for the returned header and contents; and replacing the tag of an acceptable packet by any other tag makes decrypt fail.", "quantifier": "every cipher state, every ciphertext, tag and aad, adversarial ones included", "why_tests_cant": "Adversarial inputs are unbounded; tests flip a few bits.", "anchors": ["protocol/src/lib.rs: InboundCipher::decrypt, decrypt_in_place", "protocol/src/fschacha20poly1305.rs: FSChaCha20Poly1305::decrypt"]}
{"id": "C10", "title": "A failed decryption changes no key state and releases no plaintext", "statement": "Whenever decrypt, decrypt_in_place or decrypt_to_vec returns an error, the cipher is exactly what it was before (so the very same, or the right, packet can be offered again) and the output buffer contains either its previous bytes or the still encrypted input bytes, never decrypted ones.", "quantifier": "every cipher state, ciphertext, buffer and aad that leads to an error", "why_tests_cant": "Every failing input.", "anchors": ["protocol/src/lib.rs: InboundCipher::decrypt, decrypt_in_place, decrypt_to_vec", "protocol/src/fschacha20poly1305.rs: FSChaCha20Poly1305::decrypt"]}
{"id": "C11", "title": "The three decrypt entry points agree", "statement": "For every input on which decrypt with a sufficient buffer succeeds, decrypt_in_place and (within its size limit) decrypt_to_vec succeed with the same packet type, the same plaintext and the same resulting cipher, and they fail together as well.", "quantifier": "every cipher state, ciphertext of at least 16 bytes, aad", "why_tests_cant": "Equivalence over all inputs.", "anchors": ["protocol/src/lib.rs: InboundCipher::decrypt, decrypt_in_place, decrypt_to_vec"]}
{"id": "C12", "title": "Size limits of the decrypt entry points", "statement": "decrypt and decrypt_in_place answer CiphertextTooSmall exactly for fewer than 17 bytes; decrypt answers BufferTooSmall exactly when the buffer is shorter than the ciphertext minus 16 (and reports that number); decrypt_to_vec answers PacketTooBig exactly when the plaintext would exceed 4000014 bytes. The documented CiphertextTooSmall answer of decrypt_to_vec is not honoured for fewer than 16 bytes: there it panics in debug builds and answers PacketTooBig in release builds.", "quantifier": "every ciphertext length and buffer length", "why_tests_cant": "Boundary behaviour over all lengths and both build profiles.", "anchors": ["protocol/src/lib.rs: InboundCipher::decrypt, decrypt_to_vec, decryption_buffer_len, validate_ciphertext_size"]}
{"id": "C13", "title": "A replayed or reordered packet can only pass by a MAC coincidence", "statement": "If the body of packet i is accepted at another position j of the same direction, then the MAC of that ciphertext under packet j's key and nonce equals its MAC under packet i's key and nonce, and those two nonces are different. The inbound position only moves when a packet is accepted.", "quantifier": "every session, all positions i and j, every packet", "why_tests_cant": "All pairs of positions.", "anchors": ["protocol/src/lib.rs: InboundCipher::decrypt", "protocol/src/fschacha20poly1305.rs: FSChaCha20Poly1305"]}
{"id": "C14", "title": "The cipher API does not panic", "statement": "With fewer than 2^32 - 1 packets processed, encrypt, encrypt_to_vec, decrypt_packet_len, decrypt and decrypt_in_place return (Ok or Err) and do not panic, whatever the arguments are; decrypt_to_vec does so for every ciphertext of at least 16 bytes.", "quantifier": "every argument and every cipher state reachable with counters below the limits, both build profiles", "why_tests_cant": "Absence of panics over all inputs.", "anchors": ["protocol/src/lib.rs: OutboundCipher, InboundCipher"]}
{"id": "C15", "title": "Opposite roles are mirror images, and directions are independent", "statement": "From the same key material the outbound cipher of one role is exactly the inbound cipher of the other, both have the same session id, and no sequence of operations on one direction changes the other direction.", "quantifier": "every key material and every interleaving of inbound and outbound operations", "why_tests_cant": "All interleavings.", "anchors": ["protocol/src/lib.rs: CipherSession::new, inbound, outbound, into_split"]}
{"id": "C16", "title": "Decoy flag: exact-byte rather than bit semantics", "statement": "PacketType::to_byte then from_byte is the identity and the wire values are 0 and 128; from_byte answers Decoy for the header byte 128 and Genuine for all 255 others. BIP-324 defines the flag as bit 7 alone, so the 127 headers with bit 7 and another bit set are classified Genuine against the BIP.", "quantifier": "all 256 header bytes", "why_tests_cant": "Covers every header byte including ones this library never sends.", "anchors": ["protocol/src/lib.rs: PacketType::from_byte, to_byte, DECOY_BYTE"]}
{"id": "C17", "title": "send_key contract", "statement": "send_key fails with TooMuchGarbage exactly when more than 4095 garbage bytes are given, otherwise with BufferTooSmall (naming 64 + garbage) exactly when the buffer is smaller than send_key_len; otherwise it writes the 64-byte key followed by the garbage at the start of the buffer, leaves the rest of the buffer unchanged and keeps magic and role.", "quantifier": "every garbage, buffer, key and role", "why_tests_cant": "All sizes.", "anchors": ["protocol/src/handshake.rs: Handshake<Initialized>::send_key, send_key_len"]}
{"id": "C18", "title": "V1 detection is exactly the magic prefix", "statement": "receive_key answers V1Protocol exactly when the first four received bytes are the network magic; in every other case it derives key material from both public keys (in initiator, responder order whatever the local role), the local secret and the magic. In particular an honest V2 peer whose public key happens to start with the magic is refused.", "quantifier": "every 64-byte key, magic, role and local key", "why_tests_cant": "2^512 keys.", "anchors": ["protocol/src/handshake.rs: Handshake<SentKey>::receive_key"]}
{"id": "C19", "title": "Key derivation is the BIP-324 one", "statement": "All seven session secrets come from HKDF over the ECDH secret with salt 'bitcoin_v2_shared_secret' || magic: session id, the four 32-byte keys under five distinct labels, and the two garbage terminators as first and second half of the 'garbage_terminators' expansion; all have their prescribed sizes, and no two of the expansion labels coincide.", "quantifier": "every ECDH input and magic", "why_tests_cant": "Covers every key pair and network rather than the seven vectors.", "anchors": ["protocol/src/lib.rs: SessionKeyMaterial::from_ecdh"]}
{"id": "C20", "title": "Both peers derive the same session", "statement": "If initiator and responder use the same magic, receive each other's public key unmodified and neither key starts with the magic, both derive identical key material (session id, keys, terminators).", "quantifier": "every pair of secret keys and every magic, given the agreement law of the ECDH primitive", "why_tests_cant": "All key pairs.", "anchors": ["protocol/src/handshake.rs: receive_key", "protocol/src/lib.rs: SessionKeyMaterial::from_ecdh"]}
{"id": "C21", "title": "send_version writes exactly terminator, decoys, version", "statement": "send_version fails exactly when the buffer is smaller than send_version_len (naming it). Otherwise it writes the local garbage terminator, then the decoy packets in order, then the empty genuine version packet, which are the first packets of the outbound direction; the local garbage is the associated data of the first of these packets only; the rest of the buffer is unchanged; the number of bytes is exactly send_version_len; and the terminator it waits for is the peer's.", "quantifier": "every key material, role, garbage, decoy list and buffer", "why_tests_cant": "Every number and size of decoys.", "anchors": ["protocol/src/handshake.rs: Handshake<ReceivedKey>::send_version, send_version_len"]}
{"id": "C22", "title": "Garbage terminator search: first match, exact limits", "statement": "receive_garbage finds the terminator if and only if it occurs at an offset of at most 4095 in the buffer, and then takes the first occurrence: the garbage is what precedes it and consumed_bytes is garbage + 16. If it does not occur there, the answer is NoGarbageTerminator exactly when the buffer has 4111 bytes or more, and otherwise a request for more data that leaves the handshake unchanged.", "quantifier": "every buffer and every terminator", "why_tests_cant": "All buffers, boundaries 4095/4096/4110/4111 included.", "anchors": ["protocol/src/handshake.rs: Handshake<SentVersion>::receive_garbage, split_garbage"]}
{"id": "C23", "title": "Garbage search does not depend on how data arrives", "statement": "Offering growing prefixes of a stream gives the same final answer whatever the growth steps are: a found terminator stays found at the same offset when more data is appended, an answer NoGarbageTerminator is final, and a request for more data never hides an earlier match.", "quantifier": "every stream and every way of cutting it", "why_tests_cant": "All segmentations of all streams.", "anchors": ["protocol/src/handshake.rs: receive_garbage, split_garbage"]}
{"id": "C24", "title": "Version phase: garbage authenticated once, decoys skipped, first genuine packet completes", "statement": "receive_version checks the first packet against the received garbage as associated data and every later packet against empty associated data; an authentic decoy keeps the handshake going whatever their number and contents, an authentic genuine packet completes it whatever its contents, and anything else is an error. So a completed handshake means the received garbage was authenticated by the holder of the keys.", "quantifier": "every remote packet sequence, every garbage", "why_tests_cant": "Any number of decoys, any garbage.", "anchors": ["protocol/src/handshake.rs: Handshake<ReceivedGarbage>::receive_version"]}
{"id": "C25", "title": "An honest handshake completes and leaves the ciphers in step", "statement": "For any two secret keys, garbage of up to 4095 bytes and decoy lists on both sides, if both parties follow the API then both reach Complete, with equal session ids, having consumed exactly what the peer sent, and each one's inbound cipher equals the other's outbound cipher, so that all later packets round-trip. The only exceptions are a public key starting with the magic and garbage that itself contains the terminator.", "quantifier": "all key pairs, garbage and decoys of both sides", "why_tests_cant": "The test suite tries a few combinations.", "anchors": ["protocol/src/handshake.rs: Handshake (all states)"]}
{"id": "C26", "title": "Handshake does not panic on any remote input", "statement": "Whatever bytes the remote sends as key, garbage and packets, the handshake functions return Ok or Err and never panic.", "quantifier": "every remote input at every handshake state", "why_tests_cant": "All inputs; the fuzz targets sample them.", "anchors": ["protocol/src/handshake.rs: receive_key, receive_garbage, decrypt_packet_len, receive_version"]}
{"id": "C27", "title": "The I/O handshake does not depend on read segmentation", "statement": "For the synchronous and the tokio handshake, the outcome (error or ciphers), the bytes written and the bytes still to be read depend only on the byte stream received, not on how the reader splits it into read results or when it blocks.", "quantifier": "every byte stream, every segmentation and blocking pattern, both drivers", "why_tests_cant": "All segmentations of all streams.", "anchors": ["protocol/src/io.rs: handshake, handshake_with_initialized", "protocol/src/futures.rs: handshake"]}
{"id": "C28", "title": "The handshake neither loses nor invents bytes", "statement": "When the I/O handshake succeeds, the returned session reader delivers exactly the received bytes that follow the remote's version packet, in order, each once: bytes over-read while looking for the terminator come first, then the underlying reader.", "quantifier": "every received stream and segmentation", "why_tests_cant": "Over-read amounts depend on segmentation; tests cover one.", "anchors": ["protocol/src/io.rs: ProtocolSessionReader, handshake_with_initialized", "protocol/src/futures.rs: ProtocolSessionReader, handshake"]}
{"id": "C29", "title": "Two I/O endpoints connect and exchange any payload sequence", "statement": "If each endpoint's received stream is what the other one writes, arbitrarily segmented, both handshakes succeed, and afterwards every sequence of payloads written by one side is read by the other as the same sequence of packet types and contents.", "quantifier": "all keys, garbage, decoys, payload sequences and segmentations, both drivers", "why_tests_cant": "End-to-end claim over all sequences and segmentations.", "anchors": ["protocol/src/io.rs: Protocol", "protocol/src/futures.rs: Protocol"]}
{"id": "C30", "title": "No handshake deadlock", "statement": "An endpoint emits its key and garbage before it needs any input and its terminator, decoys and version after having received only the peer's 64-byte key, so that two endpoints never wait for each other.", "quantifier": "every input truncated at any point", "why_tests_cant": "A property of every partial execution.", "anchors": ["protocol/src/io.rs: handshake_with_initialized", "protocol/src/futures.rs: handshake"]}
{"id": "C31", "title": "Premature close and I/O errors are reported with the right suggestion", "statement": "If the remote's stream ends anywhere before the end of its version packet, the handshake returns an I/O error of kind UnexpectedEof with the suggestion RetryV1, and never hangs or succeeds. For every I/O error kind the suggestion is RetryV1 exactly for ConnectionReset, ConnectionAborted and UnexpectedEof. Because the same mapping is used after the handshake, a peer closing an established session also yields RetryV1.", "quantifier": "every truncation point of every stream; every error kind", "why_tests_cant": "Every truncation point.", "anchors": ["protocol/src/io.rs: ProtocolError::from, ProtocolError::eof, handshake_with_initialized", "protocol/src/futures.rs: handshake, ProtocolReader::read"]}
{"id": "C32", "title": "Handshake packets above the limit are refused before allocation", "statement": "During the handshake a packet announced with more than 4000014 bytes (header, contents and tag) is refused with PacketTooBig before its body is read or allocated; established synchronous sessions instead allocate and read the announced size (up to 2^24+16 bytes) before refusing plaintexts above 4000014 bytes, and tokio sessions do not refuse at all.", "quantifier": "every announced length", "why_tests_cant": "All lengths and the three code paths.", "anchors": ["protocol/src/io.rs: handshake_with_initialized, ProtocolReader::read", "protocol/src/futures.rs: handshake, ProtocolReader::read", "protocol/src/lib.rs: MAX_PACKET_SIZE_FOR_ALLOCATION"]}
{"id": "C33", "title": "Established synchronous reads decode the stream", "statement": "Successive read calls on an established synchronous session return exactly the packets of the stream in order, consuming exactly the bytes of each packet, for every segmentation of the underlying reader; when the stream ends inside a packet the read returns UnexpectedEof.", "quantifier": "every stream of packets and every segmentation", "why_tests_cant": "All segmentations.", "anchors": ["protocol/src/io.rs: ProtocolReader::read"]}
{"id": "C34", "title": "A synchronous read that fails mid-packet cannot be resumed", "statement": "If the underlying reader fails (for example a read timeout) after part of a packet was consumed, that part is lost: the next read call takes later bytes for a length prefix and decrypts them with an advanced length cipher. The tokio reader keeps the part.", "quantifier": "every packet and every cut point inside it", "why_tests_cant": "Every cut point.", "anchors": ["protocol/src/io.rs: ProtocolReader::read", "protocol/src/futures.rs: ProtocolReader::read"]}
{"id": "C35", "title": "Asynchronous read is cancellation safe", "statement": "However the read future of an established tokio session is polled, suspended and dropped in between, re-issuing read yields the same sequence of payloads as uninterrupted reading of the same byte stream: no byte is lost, duplicated or decrypted twice.", "quantifier": "every stream, every segmentation, every pattern of suspension and cancellation", "why_tests_cant": "All cancellation points and schedules.", "anchors": ["protocol/src/futures.rs: ProtocolReader::read, DecryptState"]}
{"id": "C36", "title": "Synchronous and tokio readers agree up to the size cap", "statement": "On the same stream the synchronous and tokio readers return the same payloads as long as every plaintext has at most 4000014 bytes; a larger authentic packet is delivered by the tokio reader and refused with PacketTooBig by the synchronous one, which then has consumed the packet without advancing its packet cipher.", "quantifier": "every stream", "why_tests_cant": "All streams and sizes.", "anchors": ["protocol/src/io.rs: ProtocolReader::read", "protocol/src/futures.rs: ProtocolReader::read", "protocol/src/lib.rs: decrypt_to_vec"]}
{"id": "C37", "title": "Asynchronous read always makes progress or reports", "statement": "A poll of an asynchronous read never spins: it either suspends because the transport has nothing to offer, or returns a payload, or returns an error; a closed transport yields ConnectionAborted. After an authentication failure every further read reports the same failure again without consuming any further byte.", "quantifier": "every reader state and transport behaviour", "why_tests_cant": "All executions.", "anchors": ["protocol/src/futures.rs: ProtocolReader::read"]}
{"id": "C38", "title": "write emits one packet; a failed write desynchronises silently", "statement": "A successful write appends exactly one complete packet (contents + 20 bytes) carrying the payload to the transport and has flushed it; a failing flush is reported. If the transport fails during a write, the cipher has nevertheless advanced and nothing marks the session as broken: a later write can return Ok although the peer cannot read it.", "quantifier": "every payload, every transport failure point", "why_tests_cant": "Every failure point.", "anchors": ["protocol/src/io.rs: ProtocolWriter::write", "protocol/src/futures.rs: ProtocolWriter::write"]}
{"id": "C39", "title": "Payload accessors", "statement": "A payload built with genuine or decoy reports that type and the given contents; a payload obtained by reading reports the type given by its header byte and the plaintext after the header byte; packets delivered by read always have a header byte, so that the accessors cannot panic.", "quantifier": "every contents, every packet read", "why_tests_cant": "All payloads.", "anchors": ["protocol/src/io.rs: Payload"]}
{"id": "C40", "title": "The handshake terminates on every finite input", "statement": "For every finite sequence of transport events the handshake functions return after finitely many steps; the garbage phase performs at most 4095 reads.", "quantifier": "every finite transport behaviour", "why_tests_cant": "Termination for all inputs.", "anchors": ["protocol/src/io.rs: handshake_with_initialized", "protocol/src/futures.rs: handshake"]}
{"id": "C41", "title": "Traffic shaper output respects protocol limits", "statement": "For every configuration and every random source the shaper's handshake garbage has at most 4095 bytes (so send_key accepts it), there are at most three handshake decoys of 1 to 1024 bytes, and padding and cover decoys are decoy payloads of 1 to 1024 bytes.", "quantifier": "every random source and configuration", "why_tests_cant": "All random outcomes.", "anchors": ["traffic/src/lib.rs: TrafficShaper::handshake, decoy, pad"]}
{"id": "C42", "title": "Disabled shaping is transparent", "statement": "With padding and decoys disabled the shaper offers no garbage and no decoys at the handshake, never pads, never emits cover traffic and draws no randomness; a shaped write then sends exactly the packets a plain Protocol would send.", "quantifier": "every payload sequence and random source", "why_tests_cant": "All sequences.", "anchors": ["traffic/src/lib.rs: TrafficShaper", "traffic/src/io.rs: ShapedProtocolWriter::write"]}
{"id": "C43", "title": "Shaped writes are atomic with respect to cover traffic", "statement": "For every interleaving of the application's write calls with the decoy thread, the bytes on the wire are a sequence of complete packets in cipher order; each genuine packet is directly preceded by its padding decoy (if padding is on); and a peer that skips decoys receives exactly the written payloads in order.", "quantifier": "every interleaving, every payload sequence, every random outcome", "why_tests_cant": "All thread schedules.", "anchors": ["traffic/src/io.rs: ShapedProtocolWriter::write, decoy_thread"]}
{"id": "C44", "title": "Dropping the shaped writer stops cover traffic", "statement": "After drop has set the shutdown flag the decoy thread executes at most one more round, sends at most one more decoy, and terminates; when drop has returned no further packet is written.", "quantifier": "every schedule of the decoy thread and the dropping thread", "why_tests_cant": "All thread schedules.", "anchors": ["traffic/src/io.rs: Drop for ShapedProtocolWriter, decoy_thread"]}
{"id": "C45", "title": "The asynchronous writer task serves commands in order", "statement": "For every schedule of commands and timer ticks the writer task handles commands in the order sent, sends each one's padding decoy and then its payload with no other packet in between, omits the payload when its padding decoy failed, and reports to each caller the result of its own command.", "quantifier": "every schedule of commands and ticks, every transport failure pattern", "why_tests_cant": "All schedules.", "anchors": ["traffic/src/futures.rs: writer_task, ShapedProtocolWriter::write"]}
{"id": "C46", "title": "The asynchronous writer task never exits", "statement": "The writer task is documented to exit when all senders are dropped, but its select! also has a timer branch that always matches, so the else branch that ends the loop is never taken: for no schedule does the task terminate, and with cover traffic enabled it goes on emitting decoys for as long as the timer fires.", "quantifier": "every schedule, every point at which the senders are dropped", "why_tests_cant": "Non-termination cannot be observed by a finite test.", "anchors": ["traffic/src/futures.rs: writer_task (tokio::select! else branch)"]}
{"id": "C47", "title": "A swallowed decoy failure makes later successful writes undeliverable", "statement": "The decoy thread (and task) ignore write errors: if the transport fails in the middle of a cover-traffic packet, later application writes may still return Ok although the peer's reader is already out of step and cannot obtain the payload.", "quantifier": "every failure point inside a decoy packet", "why_tests_cant": "All failure points.", "anchors": ["traffic/src/io.rs: decoy_thread", "traffic/src/futures.rs: writer_task"]}
{"id": "C48", "title": "Traffic statistics account exactly for what was recorded", "statement": "After any interleaving of record_read and record_write calls, the byte and message counters equal the sums of the recorded values modulo 2^64, independently of the order; the write/read ratio is absent exactly when no byte was recorded as read; the idle time never is negative.", "quantifier": "every sequence and interleaving of recordings, every clock", "why_tests_cant": "All interleavings.", "anchors": ["traffic/src/lib.rs: AtomicTrafficStats"]}
{"id": "C49", "title": "The shaper records what it emits", "statement": "Every shaper call adds to the write statistics exactly the number of garbage, padding, cover or genuine bytes and messages it hands out, and nothing else; the recording takes place before the transport write, so failed writes are counted too.", "quantifier": "every configuration, random source, payload and call sequence", "why_tests_cant": "All call sequences.", "anchors": ["traffic/src/lib.rs: TrafficShaper::handshake, pad, decoy", "traffic/src/io.rs: ShapedProtocolWriter::write"]}
{"id": "C50", "title": "Skipping decoys recovers the genuine messages", "statement": "Whatever decoy packets (sizes, numbers, positions) the sender inserts between genuine packets, a receiver that ignores payloads of type Decoy obtains exactly the genuine contents in order.", "quantifier": "every sequence of genuine and decoy payloads", "why_tests_cant": "All sequences.", "anchors": ["protocol/src/lib.rs: PacketType", "protocol/src/io.rs: ProtocolReader::read, Payload::packet_type", "traffic/src/lib.rs: TrafficShaper"]}
{"id": "C51", "title": "Asynchronous write is not cancellation safe", "statement": "A tokio write encrypts the whole packet, and thereby advances the cipher, before its first suspension point. If its future is dropped after any number of polls, a prefix of the packet is on the wire; the next write may return Ok although its payload cannot be read by the peer. Polled to the end it behaves as write.", "quantifier": "every payload, every writer behaviour, every number of polls before the drop", "why_tests_cant": "All drop points under all partial-write patterns.", "anchors": ["protocol/src/futures.rs: ProtocolWriter::write"]}
{"id": "C52", "title": "into_inner of the tokio reader between and inside packets", "statement": "ProtocolReader::into_inner called between packets yields the cipher and a reader that delivers exactly the bytes after the packets already returned; called while a packet is partly read it drops the bytes already taken, so that cipher and reader no longer fit together.", "quantifier": "every stream and every pattern of polls and cancellations before the call", "why_tests_cant": "All poll patterns.", "anchors": ["protocol/src/futures.rs: ProtocolReader::into_inner, DecryptState"]}
{"id": "C53", "title": "Nothing a remote does makes the I/O layer panic", "statement": "For every behaviour of the transport (bytes, errors, blocking, closing) the synchronous and tokio handshake and all subsequent reads return; they panic for no input, given a valid local key and, in builds with overflow checks, fewer than 2^35 bytes in the handshake and fewer than 2^32 packets.", "quantifier": "every transport behaviour, every local garbage and decoys, any number of reads, polls and cancellations", "why_tests_cant": "All inputs.", "anchors": ["protocol/src/io.rs: handshake, ProtocolReader::read", "protocol/src/futures.rs: handshake, ProtocolReader::read"]}
{"id": "C54", "title": "Two shaped endpoints deliver exactly what is written", "statement": "Two endpoints created by ShapedProtocol::new (blocking or tokio in any combination, any shaping configurations, any random draws) complete the handshake over connected transports, unless an endpoint's random garbage happens to contain its own terminator early; afterwards, whatever interleaving of writes, cover traffic and timers, every completed write returned Ok and the peer's reader, skipping decoys, obtains exactly the completed writes in order.", "quantifier": "every configuration, random source, key pair, segmentation of the streams, schedule on both sides", "why_tests_cant": "All schedules, random draws and segmentations.", "anchors": ["traffic/src/io.rs: ShapedProtocol::new", "traffic/src/futures.rs: ShapedProtocol::new, writer_task", "protocol/src/io.rs: handshake"]}
{"id": "C55", "title": "Key generation at the start of a handshake", "statement": "Handshake::new succeeds exactly when the 32 drawn bytes are a valid secret key and reports SecretGeneration otherwise; only a debug build panics, and only for the all-zero draw. The first 64 bytes sent are the ElligatorSwift encoding for exactly that secret, followed by the garbage and nothing else.", "quantifier": "every draw of the random source, magic, role and garbage", "why_tests_cant": "Invalid and all-zero draws have negligible probability.", "anchors": ["protocol/src/handshake.rs: Handshake::new_with_rng, send_key"]}
{"id": "C56", "title": "The writer task suspended inside its branches", "statement": "The awaits inside the branches of the writer task change nothing but the timing: with commands, ticks and vanishing callers arriving while a padding decoy, payload or cover decoy is half written, the task reaches the same states as if its branches ran without suspension, gets back to its select! after as many polls as the transport can hold it up, and never exits by itself. Dropped by the runtime at any await, it leaves a prefix of complete packets on the wire, possibly cut in the middle of one.", "quantifier": "every schedule of polls, commands, callers giving up and drops of the task, every behaviour of the transport", "why_tests_cant": "All suspension points under all partial-write patterns.", "anchors": ["traffic/src/futures.rs: writer_task", "protocol/src/futures.rs: ProtocolWriter::write"]}
{"id": "C57", "title": "A shaped asynchronous write whose caller gives up is still sent intact", "statement": "Unlike the plain asynchronous writer (C51), dropping the future of ShapedProtocolWriter::write after the command was sent does not tear a packet: the task still sends it and all other commands completely and in order, and the peer reads every payload.", "quantifier": "every schedule of polls, commands and callers giving up, every behaviour of the transport short of failure", "why_tests_cant": "All points at which a caller can give up.", "anchors": ["traffic/src/futures.rs: ShapedProtocolWriter::write, writer_task"]}
{"id": "C58", "title": "A session that is not split behaves as its two halves", "statement": "Calling Protocol::read and Protocol::write in any interleaving gives exactly the results, packets and final states that the reader and the writer obtained by into_split give on their own. For the asynchronous Protocol this holds with any interleaving of polls, dropped read futures and writes: reads stay cancellation-safe and in order, and writes equal those of the plain writer as long as no write future is dropped before it is done; nothing panics.", "quantifier": "every sequence of reads, writes, polls and dropped futures, every transport behaviour on both sides", "why_tests_cant": "All interleavings of the two directions with all suspension points.", "anchors": ["protocol/src/io.rs: Protocol::read, write, into_split", "protocol/src/futures.rs: Protocol::read, write, into_split"]}
{"id": "C59", "title": "into_inner and the session reader hand over exactly the rest", "statement": "After any number of successful reads, ProtocolReader::into_inner returns a cipher and a session reader that stand at the same packet, the first one not read; after any number of successful writes, packets encrypted by hand with the cipher from ProtocolWriter::into_inner and appended to the transport continue a stream the peer reads completely. Read directly with any buffer sizes, the session reader delivers the bytes left over from the handshake first and then the transport, each byte once and in order.", "quantifier": "every number of reads and writes, every later packets, every sequence of buffer sizes, polls and transport events", "why_tests_cant": "All splits between handshake leftover, packets and raw reads.", "anchors": ["protocol/src/io.rs: ProtocolReader::into_inner, ProtocolWriter::into_inner, ProtocolSessionReader::read", "protocol/src/futures.rs: ProtocolSessionReader::poll_read, into_inner"]}
{"id": "C60", "title": "A blocking shaped write always can return", "statement": "While a write or drop of the blocking ShapedProtocolWriter is in progress one of its two threads can move; from every reachable state the call returns after at most two moves of the decoy thread and four of its own, and in no schedule does it need more than four of its own. How long it waits for the mutex is not bounded by the code: a scheduler may let the decoy thread go first any number of times. After a panic under the mutex neither thread writes anything any more and no call returns.", "quantifier": "every schedule of the two threads, every reachable state, every configuration and random source", "why_tests_cant": "All interleavings.", "anchors": ["traffic/src/io.rs: ShapedProtocolWriter::write, drop, decoy thread"]}
{"id": "C61", "title": "A handshake decoy the sender accepts and the receiver refuses", "statement": "send_version encrypts decoys of any size below 2^24 bytes, but the peer's handshake refuses every packet of more than 4000014 bytes: if an honest endpoint is given such a decoy, its own handshake completes, while the honest peer running the same library fails with PacketTooBig after having read only the three length bytes of that decoy and having allocated only the buffers of the decoys before it.", "quantifier": "every key pair, magic, garbage, role, decoys before and after the oversized one, driver and segmentation", "why_tests_cant": "A test covers one size, one role and one decoy; the claim is about all of them and about what the sender sees.", "anchors": ["protocol/src/handshake.rs: Handshake::send_version", "protocol/src/lib.rs: MAX_PACKET_SIZE_FOR_ALLOCATION", "protocol/src/io.rs: handshake", "protocol/src/futures.rs: handshake"]}
{"id": "C62", "title": "Shaped reads return what plain reads return and record each payload once", "statement": "ShapedProtocolReader::read, blocking or asynchronous, returns exactly what the plain reader returns for the same transport, however it is polled and its futures dropped, and passes to the statistics exactly the sizes of the payloads it returned, each once.", "quantifier": "every stream, segmentation, schedule of polls and cancellations", "why_tests_cant": "All cancellation points.", "anchors": ["traffic/src/io.rs: ShapedProtocolReader::read", "traffic/src/futures.rs: ShapedProtocolReader::read", "traffic/src/lib.rs: TrafficStats::record_read"]}
{"id": "C63", "title": "Two endpoints over a transport of bounded capacity: when the handshake completes and when both wait for ever", "statement": "An endpoint writes its key and garbage before it reads anything, and after reading 64 bytes writes its terminator, decoys and version before it reads on. Run operation by operation against a peer of the same library over a transport that holds a bounded number of bytes in each direction, whatever the interleaving and however much the transport takes or offers at a time, the number of operations is bounded, and the capacity and the sizes of the four flights alone decide the outcome: either neither endpoint ever finishes, or they stop only when both have completed with each other's ciphers and nothing is left in the transport. Without garbage and decoys this takes a capacity of 64 bytes; what the shapers add always fits 7263 bytes; decoys given by the caller can exceed any buffer, and then two honest endpoints wait for each other for ever.", "quantifier": "every key pair, magic, garbage, decoys, capacity, interleaving of the two endpoints and amounts taken and offered, either driver on either side", "why_tests_cant": "Tests run over mocks or sockets whose buffers are larger than what they send, and in one schedule.", "anchors": ["protocol/src/io.rs: handshake", "protocol/src/futures.rs: handshake", "protocol/src/handshake.rs: Handshake::send_key, Handshake::send_version", "traffic/src/lib.rs: TrafficShaper::handshake"]}
{"id": "C64", "title": "Each shaping strategy controls exactly its own traffic, at a bounded cost", "statement": "The configuration setters change one strategy each. The padding strategy alone decides whether garbage and padding are produced, the decoy strategy alone whether handshake decoys and cover decoys are; a cover decoy is produced exactly for 15 of the 100 draws. A shaped handshake sends at most 7327 bytes (100 plus what the statistics record plus 20 per decoy), and each padding or cover decoy costs 21 to 1044 bytes on the wire. Padding is a packet of its own, written and flushed before the payload's packet (not after it, as the README says), so the write of the payload's packet still shows the payload's length.", "quantifier": "every configuration, random source, payload sequence, session and driver", "why_tests_cant": "Tests with a mock generator see a few draws; the bounds are over all of them and over whole sessions.", "anchors": ["traffic/src/lib.rs: TrafficConfig, TrafficShaper::handshake, decoy, pad", "traffic/src/io.rs: ShapedProtocolWriter::write", "traffic/src/futures.rs: ShapedProtocolWriter"]}
{"id": "C65", "title": "A receiver accepts what its peer sent, in order, or somebody forged a tag", "statement": "Whatever bytes an attacker delivers, the packets accepted by the decryption calls, by the readers of an established session (also after failed reads) and by any polls and cancellations of the asynchronous reader are a prefix of what the peer sent, with their types, contents and associated data: nothing is altered, left out, repeated or reordered, unless a body among the delivered bytes carries a valid tag under the key and nonce of its packet number although the peer never sent it under that number. Up to the first failure not only the contents but every byte consumed is the peer's, the unauthenticated length bytes included.", "quantifier": "every session, message sequence, byte stream, sequence of API calls, driver, transport, schedule", "why_tests_cant": "Tests flip a few bits of a few packets; the claim is about every byte stream, and says exactly which event of the MAC an attack needs.", "anchors": ["protocol/src/lib.rs: InboundCipher::decrypt_packet_len, decrypt_in_place, decrypt, decrypt_to_vec", "protocol/src/io.rs: ProtocolReader::read", "protocol/src/futures.rs: ProtocolReader::read"]}
{"id": "C66", "title": "Behind the key exchange nothing of a handshake can be altered unnoticed", "statement": "If the peer's 64-byte key arrives and the handshake then completes, the garbage, terminator, decoys and version packet consumed are byte for byte what the peer sent, the session begins exactly where the peer's begins, with the same cipher state, and the payloads read afterwards are a prefix of what the peer sent, unless there is a forgery in the sense of C65 for one of the packet numbers in question.", "quantifier": "every key pair, magic, garbage, decoys, messages, byte stream behind the key, driver, segmentation, schedule", "why_tests_cant": "All attacks on all bytes; tests alter a few.", "anchors": ["protocol/src/io.rs: handshake, ProtocolReader::read", "protocol/src/futures.rs: handshake, ProtocolReader::read", "protocol/src/handshake.rs: Handshake::receive_garbage, receive_version"]}
{"id": "C67", "title": "Two endpoints with an attacker between them: each reads a prefix of what the other wrote, or there is a forgery", "statement": "Two endpoints of the library connect over bytes an attacker chooses freely behind the two keys. If both connections are established, what one of them reads, by calls or by polls and cancellations, is a prefix of the payloads the other gave to its writer, whatever became of the individual writes; with traffic shaping on both sides the same holds for the genuine payloads read and those requests the shaped writer encrypted, which are all that succeeded and some of those that failed, whatever the schedule of the decoy thread or task. The only exception is a valid tag on something the writing endpoint never produced under that packet number.", "quantifier": "every key pair, magic, garbage, decoys, shaping configuration, random source, payloads, transport failures, delivered bytes, drivers, schedules, both roles", "why_tests_cant": "Tests connect two honest endpoints by a faithful pipe.", "anchors": ["protocol/src/io.rs: Protocol::new, ProtocolReader::read, ProtocolWriter::write", "protocol/src/futures.rs: Protocol::new, ProtocolReader::read, ProtocolWriter::write", "traffic/src/io.rs: ShapedProtocol::new, ShapedProtocolWriter::write", "traffic/src/futures.rs: ShapedProtocol::new, writer_task"]}
{"id": "C68", "title": "What an endpoint has shown of itself at any moment of its handshake", "statement": "At any moment of a handshake, also one that hangs, fails or whose future is dropped, the bytes written are determined by the endpoint's own inputs and the first 64 bytes received: at most the key and garbage as long as nothing or fewer than 64 bytes have been received; exactly these if the 64 bytes begin with the magic, in which case the handshake ends with V1Protocol and the 64 bytes are consumed; otherwise a part of the BIP-324 terminator, decoys and version packet for this key, and all of it before another byte is read. Nothing the peer sends behind its 64 bytes changes what it gets to see. Contrary to BIP 324 a responder does not wait for a byte that differs from a V1 version message before it sends its key.", "quantifier": "every secret, magic, garbage, decoys, role, driver, transport behaviour, byte stream, number of operations performed", "why_tests_cant": "All points of interruption under all transports and all streams; a probing peer tries them all.", "anchors": ["protocol/src/io.rs: handshake", "protocol/src/futures.rs: handshake", "protocol/src/handshake.rs: Handshake::send_key, receive_key, send_version"]}
{"id": "C69", "title": "Every random choice of a shaped endpoint is the next draw of one generator, and independent of what is written", "statement": "All random numbers an endpoint uses, from the seed on, are consecutive draws of one generator, none used twice: size and bytes of the garbage, number, sizes and bytes of the handshake decoys, then in the order of the stream for every tick a number of which 0 to 84 mean no decoy and 85 to 99 a decoy of zeros whose size is the next draw, and for every padded payload the size of its padding. Two endpoints with the same configuration and seed whose threads or tasks are scheduled alike send the same garbage and handshake decoys and make the same choices, whatever payloads they write, whatever their transports do and whoever their peers are.", "quantifier": "every random source, seed, configuration, payloads, transport, peer, schedule of the decoy thread or task, driver", "why_tests_cant": "Tests use one mock generator and one schedule; reuse or dependence on the data shows only in relations between runs.", "anchors": ["traffic/src/lib.rs: TrafficShaper::handshake, decoy, pad", "traffic/src/io.rs: ShapedProtocol::new, ShapedProtocolWriter::write, decoy thread", "traffic/src/futures.rs: ShapedProtocol::new, writer_task"]}
{"id": "C70", "title": "Behind a gap in the stream nothing arrives any more", "statement": "Whatever the transport delivers, a packet that is accepted stands among the bytes received at the place it has in the complete stream of its sender or behind it, never before, or somebody forged a tag. Of every packet a plain or shaped writer encrypts, the transport takes a part that begins it, all of it if the write succeeded. Once a part of one packet is missing, also one of cover traffic, no later message is ever read, however many later writes succeed, unless the body of a later packet happens to stand in the stream a second time behind its own place, or there is a forgery. The message of the torn packet itself can still be read, when the missing bytes happen to be what was written next.", "quantifier": "all keys, messages, failures of the writer, schedules of a shaped writer, transports, numbers of reads, polls and cancellations of the asynchronous reader, drivers", "why_tests_cant": "A test shows one garbled stream; it cannot show that no continuation of any stream is ever accepted again.", "anchors": ["protocol/src/io.rs: ProtocolWriter::write, ProtocolReader::read", "protocol/src/futures.rs: ProtocolWriter::write, ProtocolReader::read", "traffic/src/io.rs: decoy thread", "traffic/src/futures.rs: writer_task"]}
{"id": "C71", "title": "Decoys can bring two endpoints that write at the same time to a standstill for good", "statement": "Two blocking endpoints in use are joined by two transports that hold a bounded number of bytes. Without shaping, programs of writes and reads that come to their end over unlimited transports always can go on to their end if either transport holds what is written into it, and each side reads what the other wrote, in order. With random decoys this is false whatever the capacity: the decoy threads alone can fill both transports, each holding its mutex inside write, and if both applications then write anything, neither side does anything ever again, although both have a read coming next that would make room.", "quantifier": "every key, configuration with decoys, random source that gives decoys again and again, capacity, programs of both applications, schedules, segmentation", "why_tests_cant": "The standstill needs four threads and two full transports; the tests use cursors that never fill up.", "anchors": ["traffic/src/io.rs: ShapedProtocolWriter::write, ShapedProtocolReader::read, decoy_thread", "traffic/src/lib.rs: TrafficShaper::decoy"]}
{"id": "C72", "title": "With a reading thread decoys stop nobody, but dropping a writer waits for the peer to read", "statement": "One direction of two blocking shaped endpoints: an application that writes, its decoy thread, a transport that holds a bounded number of bytes, and a peer whose thread does nothing but read. Whatever has happened short of a panic, the write or drop in progress can still return, even if the transport holds a single byte; all writes that returned have succeeded, and once the transport is empty a peer that skips decoys has read exactly what was written, in order. Without the peer's reads this is false of drop: decoys can fill a transport of any capacity, drop then waits for a thread that is inside a write, and nothing but a read of the peer changes anything any more.", "quantifier": "every key, shaping configuration, random source, capacity, payloads a reader accepts, schedule of the three threads, segmentation", "why_tests_cant": "The tests write to cursors, which are never full; drop is tested with one.", "anchors": ["traffic/src/io.rs: ShapedProtocolWriter::write, ShapedProtocolWriter::drop, decoy_thread", "protocol/src/io.rs: ProtocolReader::read, ProtocolWriter::write"]}
{"id": "C73", "title": "An asynchronous shaped writer gets on while the peer takes bytes; decoys can stall two applications that write before they read", "statement": "The writer task of the asynchronous endpoint, polled against a transport that holds a bounded number of bytes. Whatever has happened short of a panic, in whatever order commands, polls and elapsed timers came: if the peer goes on taking bytes, the task can come to the end of its queue, even with a transport that holds a single byte; then every command sent, its caller still waiting or not, has been answered with success, and a peer that skips decoys reads what was sent, in order. Two applications that each await a write before they read are not safe: decoys alone can fill transports of any capacity in both directions, and a write called then is never answered; whatever is polled, nothing changes any more.", "quantifier": "every key, shaping configuration, random source, capacity, payloads a reader accepts, order of commands, polls and elapsed timers; for the stall any generator that now and then draws a decoy", "why_tests_cant": "The tests use a duplex stream of 400000 bytes, which a few packets do not fill, and end before many decoys are sent.", "anchors": ["traffic/src/futures.rs: writer_task, ShapedProtocolWriter::write, ShapedProtocolReader::read", "protocol/src/futures.rs: ProtocolWriter::write, ProtocolReader::read"]}
{"id": "C74", "title": "A Relaxed shutdown flag only delays the end of the decoy thread, without a bound", "statement": "The flag that stops the decoy thread is stored and loaded with Relaxed ordering, so tests after the store may still find it unset. Every run with such stale tests looks, in everything but where the caller of drop stands, like a run without them in which drop is called later: same calls of write with the same results, same bytes, same records, same random draws. After the flag is set, n stale tests allow at most n + 1 further decoys and 5(n + 1) further moves of the thread. Once the tests see the flag, drop returns after at most five moves of the thread, and then nothing is written any more. But no bound on the bytes sent after the store follows from the program alone.", "quantifier": "every schedule of application and decoy thread with every pattern of stale loads, every key, configuration, random source, transport", "why_tests_cant": "Tests run on hardware whose stores become visible within nanoseconds and cannot produce stale loads.", "anchors": ["traffic/src/io.rs: ShapedProtocolWriter::drop, decoy_thread"]}
{"id": "C75", "title": "A clock before 1970 ends a shaped writer between packets and costs a shaped reader a packet", "statement": "Every recording of the statistics reads the clock, and panics if the clock stands before 1970. With a clock after 1970 the readings make no difference. Otherwise, whatever the clock says at each reading: what the blocking writer or the writer task has written is still whole packets in blocks, for the first calls in order, with their results; the panic comes between packets. After it the blocking writer writes and records nothing, every call of write panics, and drop still returns after at most five moves of the decoy thread; the callers the task has not answered get UnexpectedEof with the suggestion to abort. The counters have counted the recording that panicked, so up to two packets are counted that were never written. A read that panics has taken its packet from the stream: reading again gives the next one. Making a shaped session reads the clock once, and once more for each of at most four recordings, all before a byte is read or written; new panics exactly if one of these readings is before 1970, and otherwise does the same whatever the clock says later.", "quantifier": "every sequence of clock readings, schedule, key, configuration, random source, transport; payloads a reader accepts", "why_tests_cant": "Tests run with a clock after 1970.", "anchors": ["traffic/src/lib.rs: AtomicTrafficStats::update_last_activity, record_read, record_write, TrafficShaper::pad, TrafficShaper::decoy", "traffic/src/io.rs: ShapedProtocolWriter::write, ShapedProtocolReader::read, decoy_thread", "traffic/src/futures.rs: writer_task, ShapedProtocolReader::read"]}
{"id": "C76", "title": "A fair scheduler gets every call of a shaped writer back, and how fair it has to be", "statement": "In every infinite execution of the blocking writer in which the decoy thread is scheduled weakly fairly and the application strongly fairly (it moves again and again unless it is blocked for ever from some time on), every call of write returns with a result, or panics because the mutex is poisoned; without overflow checks and with payloads a caller can make, it returns. Weak fairness of both is enough for drop to return, but not for write: the decoy thread can hold the mutex whenever the application gets its turn, for ever. A writer task that is polled again and again when its timer has not elapsed, or with the channel first, answers every command it was sent or is known to be gone (without overflow checks and with payloads a caller can make); being polled again and again is not enough, since the timer can come first every time.", "quantifier": "every infinite execution, configuration, random source, transport script, payloads", "why_tests_cant": "A test observes finite executions; the unfair ones are rare and need a scheduler that conspires.", "anchors": ["traffic/src/io.rs: ShapedProtocolWriter::write, ShapedProtocolWriter::drop, decoy_thread", "traffic/src/futures.rs: writer_task, ShapedProtocolWriter::write"]}
{"id": "C77", "title": "The fuzz targets cannot fail, and which outcomes they reach", "statement": "For every input, neither fuzz target panics, provided the seeded random source gives valid secret keys whose encodings do not start with the network magic. receive_key returns an error exactly when the 64 bytes start with the magic, and the error is V1Protocol; the invalid encoding and the failing key derivation its comments expect do not exist. receive_garbage ends at the first occurrence of the responder's terminator within the first 4095 positions, or with NoGarbageTerminator, and that only for more than 4095 bytes of data; it never reaches NeedMoreData.", "quantifier": "every input of the fuzz targets, every pair of secret keys, every environment", "why_tests_cant": "A fuzzer tries some inputs with one fixed pair of keys, and does not show which outcomes it cannot reach.", "anchors": ["fuzz/fuzz_targets/receive_key.rs: fuzz_target!", "fuzz/fuzz_targets/receive_garbage.rs: fuzz_target!", "protocol/src/handshake.rs: Handshake::receive_key, Handshake::receive_garbage"]}
{"id": "C78", "title": "What a thread that reads the statistics while others record can see", "statement": "For every interleaving of recordings from any number of threads, and loads that see any prefix of the operations on their field: the values of write_read_ratio lie between the totals recorded when the call began and when it returned, a ratio once seen does not disappear or shrink in a component, and once all recordings are seen it is exact. But the two values need not have been those of the counters at one moment: of an application that never has written more than it has read, more can be seen written than read. The idle time of a tracker made with new starts at its creation, that of one made with default starts in 1970.", "quantifier": "every set of threads, every interleaving, every choice of what the two loads see, totals below 2^64", "why_tests_cant": "A test does not hit the window between the two loads, and all interleavings cannot be tried.", "anchors": ["traffic/src/lib.rs: AtomicTrafficStats::write_read_ratio, time_since_last_activity, new, derive(Default)"]}
{"id": "C79", "title": "The floating-point write/read ratio is a number close to the quotient of the counters", "statement": "For all values of the counters, write_read_ratio is absent exactly if bytes_read is 0, and otherwise a finite number (never infinite or NaN) whose relative error is at most 2^-51, and which is 0 exactly if nothing was written and exactly 1 if as much was written as read. While both counters are below 2^53 the relative error is at most 2^-53, and the ratio is below or above 1 exactly if less or more was written than read; above 2^53 this comparison can fail.", "quantifier": "all values of the 64-bit counters", "why_tests_cant": "There are 2^128 pairs of counters; errors of rounding show only for few of them.", "anchors": ["traffic/src/lib.rs: AtomicTrafficStats::write_read_ratio"]}
{"id": "C80", "title": "The packets of a session tell neither contents nor types of the messages", "statement": "For every session, direction and sequence of fewer than 2^32 messages, and every other sequence with the same content lengths and associated data but any contents and packet types (genuine or decoy), there is another key stream for which the code emits byte for byte the same packets and ends in the same state, provided the length key and the packet key of each epoch differ. That key stream satisfies every law assumed of the real one and differs from it only behind the first block of the key streams of these packets, so that the length prefixes, the rekeying and the MAC are unchanged. The same holds for both directions at once, if the keys of one direction also differ from those of the other, and for messages chosen adaptively from the packets already seen. With the MAC left open as well, every byte string of the right total length is the stream of every sequence of messages, so nothing in the format marks where packets begin. If the two keys were equal, the claim would be false: the key stream of the length prefix of packet 22 is the one that encrypts contents of packet 0.", "quantifier": "all key streams and MACs, sessions, directions, pairs of message sequences and adaptive choices", "why_tests_cant": "A test observes one key stream; that no byte of the output depends on the contents other than through fresh key stream is a statement about all of them.", "anchors": ["protocol/src/lib.rs: OutboundCipher::encrypt, encrypt_to_vec", "protocol/src/fschacha20poly1305.rs: FSChaCha20Poly1305::encrypt, FSChaCha20::crypt"]}
{"id": "C81", "title": "Forward secrecy: the state of a cipher tells nothing about packets before its last rekeying, and everything since", "statement": "For every direction of a session and fewer than 2^32 messages: somebody who recorded all packets, then obtains the state of the cipher, and can compute the key stream of every key other than the packet keys replaced by rekeying, cannot tell the messages before the last multiple of 224 from any others of the same sizes and associated data: for another key stream, equal to the real one on all remaining keys, the code emits the same packets and reaches the same state (provided length key and packet key of each epoch differ). The messages since the last rekeying, as many as the count modulo 224, can all be read with the key in the state, and so can every later message. Hence a message is not safe as soon as it has been sent.", "quantifier": "all key streams, sessions, directions, histories of fewer than 2^32 messages and states reached by them", "why_tests_cant": "Tests fix one key stream; that an erased key leaves no other way to the plaintext quantifies over all of them and over histories of any number of rekeyings.", "anchors": ["protocol/src/fschacha20poly1305.rs: FSChaCha20Poly1305::rekey, FSChaCha20::crypt", "protocol/src/lib.rs: OutboundCipher, InboundCipher"]}
{"id": "C82", "title": "Copies of a cipher reuse key stream and nonces", "statement": "OutboundCipher, InboundCipher and CipherSession can be cloned. For every state of an outbound cipher reached by sending and all messages two copies of it send (fewer than 2^32 in all): the packets in the same place of the two histories are encrypted with the same key stream, so the exclusive or of their bodies is that of the two messages (header and contents, up to the length of the shorter), and the exclusive or of their length prefixes that of the lengths. Hence the hiding of C80 does not hold for two copies that both send. On one transport, a reader that has taken the packets of one copy accepts nothing more of the other, unless a tag that neither has made was forged. Copies of an inbound cipher each accept the same packets once, so the protection against replay is per copy.", "quantifier": "all sessions, directions, states, pairs of histories and packets", "why_tests_cant": "No test clones a cipher and uses both; that reuse shows for every pair of messages and state is a statement about all of them.", "anchors": ["protocol/src/lib.rs: OutboundCipher, InboundCipher, CipherSession (derive Clone)"]}
{"id": "C83", "title": "Everything an endpoint sends behind its key and garbage can be any byte string", "statement": "BIP-324 wants the bytes on the wire to look random. For every secret key, role, magic, garbage, decoys, messages and key of the peer (fewer than 2^32 packets in all, the length key and the packet key of each epoch different), and every byte string w as long as what the endpoint sends behind its key and garbage: there are a key stream, a MAC and garbage terminators (all keys derived as before) with which the endpoint sends exactly its key, its garbage and w. So neither the terminator, nor the decoys, nor the version, nor a length prefix or header puts any fixed byte on the wire: only the key, the garbage and the number of bytes are given away. The number of bytes is 16 plus, for each packet, its contents and 20.", "quantifier": "all secret keys, roles, garbage, decoys, messages, peer keys and byte strings of the right length", "why_tests_cant": "A test sees the bytes of one run; that no byte is fixed by the format is about all runs and all byte strings.", "anchors": ["protocol/src/handshake.rs: Handshake<Initialized>::send_key, Handshake<ReceivedKey>::send_version", "protocol/src/lib.rs: OutboundCipher::encrypt, SessionKeyMaterial::from_ecdh"]}
{"id": "C84", "title": "Somebody between two endpoints who exchanges the keys reads and says everything; only the session ids tell", "statement": "The handshake authenticates bytes, not peers (protocol/doc/DESIGN.md). For any initiator and responder, garbage and decoys on both sides, and any two secret keys of somebody between them who answers each endpoint with a key of its own: both endpoints complete, and the one in the middle, knowing its own secrets and what the endpoints have sent, has the keys of both sessions, reads every message either endpoint sends, and has every message it likes accepted in its place. The two endpoints then hold the same session id only if they have used the same two public keys or if ECDH, HKDF-Extract or HKDF-Expand has given one result for two different inputs. The only exceptions are those of C25.", "quantifier": "all key pairs of the endpoints and of the one in the middle, garbage, decoys and messages", "why_tests_cant": "No test puts anybody between the endpoints; that it succeeds for every key pair and message is a statement about all of them.", "anchors": ["protocol/src/handshake.rs: Handshake<SentKey>::receive_key", "protocol/src/lib.rs: SessionKeyMaterial::from_ecdh, CipherSession::id"]}
{"id": "C85", "title": "Padding hides the size of a payload from somebody who counts bytes only within 1023 bytes", "statement": "With padding on and cover decoys off, somebody who sees only how many bytes a shaped writer or task puts on a working transport for k payloads knows the sum of their lengths up to 1023 k: it lies between that number less 1064 k and that number less 41 k. Within this window nothing more is given away for certain: for any two lists of k payloads whose sums differ by at most 1023 k there are outcomes of the random draws with which both sessions put equally many bytes on the wire. Two payloads whose lengths differ by 1024 or more never look alike, contrary to the README (\"hiding the genuine packet size\").", "quantifier": "all payloads, schedules, random sources, ciphers and working transports", "why_tests_cant": "Tests never look at the number of bytes on the wire; that some draw makes two given sessions alike, and that none does beyond the window, are statements about all draws.", "anchors": ["traffic/src/lib.rs: TrafficShaper::pad", "traffic/src/io.rs: ShapedProtocolWriter::write", "traffic/src/futures.rs: writer task"]}
{"id": "C86", "title": "The search for the garbage terminator is bounded for every peer, but starts again after every read", "statement": "Whatever the remote sends in the garbage phase of the I/O handshake and however it arrives, the endpoint searches at most 4096 buffers of at most 4366 bytes and compares at most 8390656 windows with the terminator. The bound is reached by every peer whose 4111 bytes do not contain the terminator and arrive one at a time, while the same bytes in full reads of 256 cost 34832 comparisons: every read starts the search from the beginning, so the limit of 4111 bytes that the code sets against denial of service is one of each search (4096 windows), not of the handshake.", "quantifier": "all peers, garbage, terminators, transport scripts and segmentations", "why_tests_cant": "Tests feed the search one buffer; the cost over all ways in which bytes can arrive cannot be enumerated.", "anchors": ["protocol/src/handshake.rs: split_garbage", "protocol/src/io.rs: handshake_with_initialized, garbage loop", "protocol/src/futures.rs: handshake, garbage loop"]}
{"id": "C87", "title": "An endpoint whose own bytes come back does not notice its key but does not complete", "statement": "If everything an endpoint writes comes back to it, it takes its own public key for the peer's (nothing refuses it unless it begins with the magic), derives keys from it and sends terminator, decoys and version. The handshake then ends with NoGarbageTerminator if it has sent 4111 bytes or more behind the key, and otherwise waits for more (it ends with the error the end of the stream gives); it completes only if the 16-byte terminator of the other direction happens to occur among its own bytes, however they are cut and whatever errors come between. A packet of an established session that comes back to its sender is accepted only if its tag is at the same time the tag of that ciphertext under a key and nonce of the other direction.", "quantifier": "all keys, garbage, decoys, roles, transport scripts; all messages and positions", "why_tests_cant": "No test returns an endpoint's own bytes to it, and the claim ranges over all keys and cuts of the stream.", "anchors": ["protocol/src/handshake.rs: receive_key, receive_garbage", "protocol/src/io.rs: handshake", "protocol/src/lib.rs: SessionKeyMaterial, InboundCipher"]}
{"id": "C88", "title": "At most one command waits for the writer task unless callers give up; then there is no bound", "statement": "The channel from ShapedProtocolWriter::write to the writer task has no capacity limit. As long as no caller drops the future of a write, at most one command is held at any time, in the channel or by the task, whatever is polled, ticks, is dropped or killed. A command sent while the transport takes nothing stays in the channel also after its caller has given up: no poll begins or removes it. So with callers that give up (for instance after a time limit of their own) no bound holds for the number of payloads held.", "quantifier": "all schedules of commands, polls, ticks, drops and kills; all payloads, shaper states, transports and key streams (also in states whose counters overflow)", "why_tests_cant": "Tests do not stall the transport while they cancel writes, and neither the bound nor its absence can be seen from finitely many schedules.", "anchors": ["traffic/src/futures.rs: ShapedProtocolWriter::write, writer_task, mpsc::unbounded_channel"]}
{"id": "C89", "title": "A peer keeps an endpoint in its handshake for as many bytes as it likes", "statement": "Up to the garbage terminator an endpoint reads a bounded number of bytes. Behind it there is no limit on the number of decoys: with a peer that sends any decoys (each up to 4000014 bytes with its header and tag, behind garbage without the terminator) the endpoint reads every byte of the peer's half, at any byte before the last one it neither completes nor refuses but gives only what the end of the stream gives, and with the last byte it completes with nothing left over. So no bound holds for the bytes read by a handshake that completes.", "quantifier": "all keys, roles, garbage, decoy lists, cut points, segmentations and endings of the stream; both drivers", "why_tests_cant": "Tests use one or two decoys; that there is no limit is a statement about all lengths.", "anchors": ["protocol/src/io.rs: handshake (packet loop)", "protocol/src/futures.rs: handshake (packet loop)", "protocol/src/handshake.rs: receive_version"]}
{"id": "C90", "title": "A shaped session that is not split does what its two halves do, one call at a time", "statement": "In a shaped session that is not split, the writer half together with its decoy thread (blocking) or its task (asynchronous) does exactly what it does for a split session under the same calls, and the reads return and record exactly what the reads of the split reader do; interleaved reads, given-up reads, writes and the background work change nothing about each other. The borrow of the session lets the application be in one call at a time: while a read is in progress no write is. An awaited asynchronous write returns the task's answer to it. If no future of a write is dropped before the write is done the application is patient in the sense of C88 and at most one command is held for it; without that condition more are, although the session is borrowed once at a time.", "quantifier": "all environments and draws, all sequences of calls, polls, dropped futures and moves of the thread or the task, all transports", "why_tests_cant": "Tests do not interleave reads, writes and background decoys of one session, let alone in every order.", "anchors": ["traffic/src/io.rs: ShapedProtocol::read, write, into_split", "traffic/src/futures.rs: ShapedProtocol::read, write, into_split"]}
{"id": "C91", "title": "Whoever flips bits of an encrypted length chooses how much the receiver waits for", "statement": "The three length bytes of a packet are encrypted but no tag covers them: XORing a mask to them, without any key, XORs it to the length the receiver takes, so that somebody on the way who counts the bytes of a packet can put any length below 2^24 in place of its own. The blocking reader then allocates the chosen size plus 17 at once, and neither reader returns a payload or notices anything until so many bytes have come, the packets behind included: it gives only what the end of the stream gives. When they have come the read fails, or there is a forgery of the tag. So an altered length is not noticed when the packet it belongs to has arrived.", "quantifier": "all cipher states, packets, masks and lengths, all streams behind, endings, segmentations, polls and cancellations; both drivers", "why_tests_cant": "Tests flip bits of a few packets and see an error; that every length can be chosen and nothing is noticed before is about all of them.", "anchors": ["protocol/src/lib.rs: InboundCipher::decrypt_packet_len", "protocol/src/io.rs: ProtocolReader::read", "protocol/src/futures.rs: ProtocolReader::read"]}
{"id": "C92", "title": "Over any reader, and over a BufReader, a session does the same; a BufReader reads the transport less often", "statement": "Take any reader that answers each request with no more than was asked for, and that gives, in order, the bytes, ends and failures of some transport; a std or tokio BufReader of any capacity over the transport is one. The handshake over it ends as the handshake over the transport ends, having written the same, with the same ciphers and the same stream left to read, and panics where that one panics. A blocking read over it gives the same result, leaves the same cipher and takes as much off the stream. Polls and cancellations of the asynchronous read do over it what they do over a transport that delivers the same in other pieces, so its payloads are those of the stream in order. What the documentation says of BufReader is about cost: once the bytes read along with the garbage are used up, every payload costs at least two reads of the transport, while a BufReader over a transport with everything at hand reads it once for every capacity bytes, and once more.", "quantifier": "all readers of that kind and their states, all transports (for blocking handshakes without interrupted reads), capacities, roles, keys, garbage, decoys and writers; all ciphers, leftovers, polls and cancellations; both drivers", "why_tests_cant": "The tests use one kind of reader and never a BufReader that stops in the middle of a packet.", "anchors": ["protocol/src/io.rs: ProtocolReader::read", "protocol/src/io.rs: handshake_with_initialized", "protocol/src/futures.rs: ProtocolReader::read", "protocol/src/lib.rs: crate documentation, # Performance Considerations"]}
{"id": "C93", "title": "Over a writer that holds bytes back, nothing is held back when the endpoint listens; a failed write may still be sent later", "statement": "Take any writer that sends, or holds back for later, what it takes, in order, and that holds nothing back once a flush succeeded; a std or tokio BufWriter of any capacity over any transport is one, and so is a transport that holds nothing back. The handshake over it does what it does over a transport that takes the same bytes at once, and whenever it waits for the peer, and when it is done, all it wrote is sent. A write over it has, at every point, passed on a prefix of exactly one packet, and succeeds only when this packet and everything before it is sent. A write that fails in its flush leaves its packet with the writer: the next write that succeeds sends both. So an error, even with nothing sent, does not mean that the packet will not be sent, and a caller that writes the payload again sends it twice.", "quantifier": "all writers of that kind and their states, all transports, capacities, roles, keys, garbage, decoys, payloads, ciphers, and numbers of operations; both drivers", "why_tests_cant": "The tests write to in-memory transports that hold nothing back; leaving out a flush, which would leave both sides waiting behind a BufWriter, passes them.", "anchors": ["protocol/src/io.rs: ProtocolWriter::write", "protocol/src/io.rs: handshake_with_initialized", "protocol/src/futures.rs: ProtocolWriter::write", "protocol/src/futures.rs: handshake"]}
{"id": "C94", "title": "A recording of a peer completes no handshake with a new key; with the same key it completes whatever else the endpoint does", "statement": "Play to an endpoint whatever bytes were recorded from other sessions. If its handshake completes, they contain, behind the first 64 bytes and at most 4095 further ones, the 16-byte terminator derived from its own secret key and the replayed public key, followed by a packet whose tag is right under its own packet key with the skipped bytes as associated data: for a new key both are coincidences. If the terminator does not occur, the handshake ends with NoGarbageTerminator when 4111 bytes or more follow the key, and otherwise with what the end of the stream gives. The secret key is all that is fresh: an endpoint with the key of the recorded session completes on the recording, also with other garbage and other decoys of its own, gets the same receiving cipher and the same bytes behind the handshake, so it reads the old payloads again, and sends under the keys of the recorded session from their first packet on.", "quantifier": "all recordings, their segmentations, roles, keys, garbage, decoys and writers (that work, for what ends how); both drivers", "why_tests_cant": "The tests draw new keys for every session, and never feed one session the bytes of another.", "anchors": ["protocol/src/handshake.rs: Handshake::new_with_rng", "protocol/src/handshake.rs: Handshake::receive_key", "protocol/src/io.rs: handshake_with_initialized", "protocol/src/futures.rs: handshake"]}
{"id": "C95", "title": "What a peer makes an endpoint keep in memory is bounded, but three bytes are enough for sixteen megabytes", "statement": "The buffers an endpoint holds for what its peer sends (key, terminator, garbage, leftover, length, packet) never exceed 4350 + 4000014 bytes at any point of a handshake, whatever the transport does, and the session that comes out keeps at most 4350 of them. Afterwards the buffer of a reader never exceeds 2^24 + 16 bytes, through any polls and cancellations, and the leftover does not grow. The size of that buffer is the peer's choice and is allocated at once: for every cipher and every length below 2^24 there are three bytes after which the asynchronous read waits with a buffer of that length + 17, so memory does not follow the number of bytes received.", "quantifier": "all sequences of calls to the transport, writers, roles, keys, garbage and decoys; all polls and cancellations of reads; all lengths and ciphers whose counters have room; both drivers", "why_tests_cant": "The tests measure no memory and exchange small packets; the largest buffer in the handshake is checked with one oversized decoy.", "anchors": ["protocol/src/io.rs: handshake_with_initialized", "protocol/src/futures.rs: handshake", "protocol/src/futures.rs: init_reading_payload", "protocol/src/io.rs: ProtocolReader::read"]}
{"id": "C96", "title": "Endpoints that do not belong together wait for each other without an error", "statement": "Let two endpoints be connected that were set up with any roles and any networks, for instance both as initiator. Unless, by coincidence, the terminator one of them looks for is among the first 4111 bytes the other sends behind its key, no order of events gets either of them beyond the search: the only result is the error for a missing terminator, and only after 4175 bytes of the peer. If both send less (little garbage, few decoys) and the transport does not clog, every run ends, after a bounded number of operations, with both waiting for input, everything sent having been read, and stays there for ever; neither is told of the mistake. If the transport holds all that is sent, exactly those endpoints give up whose peer sends 4175 bytes or more.", "quantifier": "all networks, roles, keys, garbage and decoys of both endpoints, all capacities of the transport, all interleavings and chunkings, both drivers", "why_tests_cant": "The tests only connect an initiator to a responder of the same network; a test of the contrary would hang.", "anchors": ["protocol/src/io.rs: handshake_with_initialized", "protocol/src/futures.rs: handshake", "protocol/src/handshake.rs: Handshake::receive_garbage", "protocol/src/handshake.rs: Handshake::split_garbage"]}
{"id": "C97", "title": "How fast decoys follow each other: the thread keeps its distance, the task catches up in bursts", "statement": "With a clock that decides when the interval of the async writer task has elapsed and when the sleep of the blocking decoy thread ends, both do nothing they could not do without one. The task takes its i-th tick not before i periods of 100 ms after its start, so it makes at most one decoy per period and one; but it catches up: once it is back at its select with no command waiting and a transport that does not hold it up, as many polls as ticks are missing take all of them without any time passing, so its decoys are not spaced. The blocking thread sleeps a whole period between any two decoys, whatever the application does: any stretch of d ms holds at most d/100 + 1 of them.", "quantifier": "all sequences of commands, polls, stretches of time and moves of both threads, all writers, all random draws, all configurations", "why_tests_cant": "The tests of the traffic crate run no decoy timer at all; tests with real time would be slow and flaky, and see one schedule each.", "anchors": ["traffic/src/futures.rs: writer_task", "traffic/src/io.rs: decoy_thread", "traffic/src/lib.rs: DEFAULT_CHECK_INTERVAL_MS"]}
{"id": "C98", "title": "The project's own drivers of the library without its I/O layer, for every key and message", "statement": "What hello_world_happy_path and the benches do once, with a random key and fixed messages, holds for all of them: with two valid secret keys whose encodings do not begin with the network magic, the session pair is made, both ends have the session of the handshake and mirrored ciphers, hello_world_happy_path does not panic for any two messages below 2^24 bytes, and a bench iterated over any messages gives each back. It panics for every pair of keys of which one's encoding begins with the magic. The client of regtest_handshake, which takes what one read of at most 4096 bytes gives it, completes, unless the peer's garbage contains the terminator by coincidence, exactly when the whole flight of its peer (garbage, terminator, decoys, version packet) is in that read and panics otherwise - so always when the garbage is longer than 4060 of the 4095 bytes allowed - and what the read holds behind the version packet is lost to the session.", "quantifier": "all secret keys, messages, message sequences, peer garbage and decoys, all amounts the read may return, all later bytes", "why_tests_cant": "The test draws one pair of random keys per run and has fixed messages; the regtest test meets one bitcoind over loopback, whose flight always arrived in one read.", "anchors": ["protocol/tests/round_trips.rs: hello_world_happy_path, regtest_handshake", "protocol/benches/cipher_session.rs: create_cipher_session_pair", "protocol/src/handshake.rs: Handshake", "protocol/src/lib.rs: CipherSession"]}
{"id": "C99", "title": "What the errors say: every text tells its error, and which of the numbers in them are right", "statement": "Different errors of the library print different texts, whatever the errors of other crates inside print, and the text of a ProtocolError tells whether the transport failed, with which text and suggestion, or which internal error it was. The chain of sources ends after at most three steps with an error of another crate or one without a cause. The number in BufferTooSmall is exactly what the call needs: a cipher is as before, and the same call says it again with fewer bytes and not with so many (send_key and send_version then succeed). The 4095 bytes in the two texts about garbage are right. The 4 MiB in PacketTooBig are not: packets below are refused too, and without overflow checks ciphertexts of fewer than 16 bytes are. Every error's text contains the text of its source, except that the library's Error prints the debug form of its source instead, so what the source says of itself is lost. The text of every internal error ends with two full stops.", "quantifier": "all errors, texts of other crates' errors, cipher and handshake states, buffers, garbage and ciphertexts", "why_tests_cant": "No test looks at a text or a source; the required sizes are tested for one call each.", "anchors": ["protocol/src/lib.rs: Error, SecretGenerationError", "protocol/src/io.rs: ProtocolError", "protocol/src/fschacha20poly1305.rs: Error", "protocol/src/handshake.rs: send_key, send_version, receive_garbage"]}
{"id": "C100", "title": "The example program: both clients get the scenario's messages, and how many reads each takes", "statement": "For any scenario with messages below 2^24 bytes (and, with overflow checks, fewer than 2^32 - 1 of them), any valid keys whose encodings do not begin with the magic, any segmentation and any timing, over a transport that delivers what was sent: the server of bufreader.rs never fails, writing the scenario's bytes and 20 more per message after its handshake; and the client, straight from the socket or through a BufReader, gets exactly the scenario's messages in order and then stands at the end of the dump. Straight from the transport it takes at least two reads per message whatever is at hand, once the bytes read along with the garbage are used up. Through a BufReader that has everything at hand it takes at most one read per full capacity and one more, and never more than two per message; so the small scenario takes 200000 reads or more against at most 281. It does not always save reads: byte by byte, both clients ask as often.", "quantifier": "all scenarios, keys, segmentations, readers that behave as a reader should, buffer capacities and executor timings", "why_tests_cant": "The example is run by hand, measures time on one machine, and looks at none of the payloads it reads.", "anchors": ["protocol/examples/bufreader.rs: Scenario, start_server, Client::run", "protocol/src/futures.rs: Protocol::read, Protocol::write"]}
{"id": "C101", "title": "The key exchange agrees for secp256k1 itself", "statement": "With the real functions (secp256k1, ElligatorSwift, ChaCha20, Poly1305, HKDF) in place of any agreeing environment: the x coordinate computed for a secret key in range is that of that many times the base point; any 64 bytes the other side may send name a point of the curve, so the key exchange has no malformed key to refuse; two parties whose encodings name their public keys both hash the two encodings and the x coordinate of the same point, the product of both secret keys times the base point; so every hypothesis the other theorems make about the primitives holds, and two endpoints (as in C29) connect and exchange their packets with no assumption left about the key exchange.", "quantifier": "all secret keys in range, all encodings that name the public key, all 64 bytes from the other side, all inputs of C29", "why_tests_cant": "The tests use a few fixed keys and compare with known secrets; no number of key pairs shows that two parties always derive the same one.", "anchors": ["protocol/src/handshake.rs: Handshake::new", "protocol/src/lib.rs: SessionKeyMaterial::from_ecdh", "protocol/src/handshake.rs: EcdhPoint"]}
{"id": "C102", "title": "No bytes from the peer force a known secret", "statement": "The order n of secp256k1's base point is prime, a multiple of the base point is infinity exactly if n divides the factor, and every point of the curve is one of the multiples below n. So the secret keys in range are the points but infinity, each exactly once; two keys in range have public keys with the same x coordinate exactly if they are equal or add up to n. Whatever 64 bytes the other side sends and whatever the secret key in range, the shared point is a point of the curve and not infinity, and the number hashed is its x coordinate, never 0. For any bytes that are sent, every x coordinate of a point of the curve is the number hashed for some secret key, and for no third key besides that one and its negative: the bytes leave the number as open as the secret key was, and what goes into the hash differs for any two keys that do not add up to n. For any one key, two encodings give the same number exactly if they name the same x coordinate.", "quantifier": "all secret keys in range, all 64 bytes from the other side, all points of the curve", "why_tests_cant": "The tests cover a few of 2^256 keys and of 2^512 encodings; that none of them leads to a small subgroup or to infinity is a statement about all of them.", "anchors": ["protocol/src/handshake.rs: Handshake::new", "protocol/src/lib.rs: SessionKeyMaterial::from_ecdh", "protocol/src/handshake.rs: EcdhPoint"]}
{"id": "C103", "title": "A handshake given up and started over on the same connection", "statement": "A handshake that is given up after any operation - its future dropped, or a call failed - and started over with a new key on the same connection. If the first attempt sent nothing it read nothing; if it read anything it has sent its key and garbage in full. A second attempt that completes found its own garbage terminator and a packet with a tag under its own key in the bytes the first attempt left. The peer takes the first attempt's key for the key of its partner, or, if only the beginning of it was sent, that beginning continued by the second attempt's key. A peer that has the first key and finds no terminator under it in what both attempts sent fails, with the end of the stream or after 4111 bytes. If the first attempt read on behind the peer's key it has sent all of its handshake: then an honest peer completes, with the keys of the attempt that is gone, and takes all that the second attempt sends for packets of that session. So starting over fails although no byte of the peer was lost (refuted: that it completes).", "quantifier": "all moments of giving up, both drivers and roles, all keys, garbage, decoys, transports and writers", "why_tests_cant": "No test drops a handshake or calls the function again on a used stream; the moments are as many as the bytes and the pauses between them.", "anchors": ["protocol/src/futures.rs: This function is *not* cancellation safe", "protocol/src/futures.rs: async fn handshake", "protocol/src/io.rs: fn handshake"]}
{"id": "C104", "title": "How few keys let a forgery through", "statement": "What other properties leave as 'or there is a forgery', counted for Poly1305 itself (2^130 - 5 is prime). A one-time key works as its clamped form; there are 2^234 clamped keys, and exactly 2^106 of them fit any one message with any one tag. Any other message with any tag fits at most eight of them for each block of 16 bytes of the longer message. So for a packet that was sent and anything that is offered in its place there is a set of at most eight keys per block (of associated data, of ciphertext, and one for the lengths) that is known before the keys of the session are, and the packet gets through only if the one-time key of its number, clamped, is in it; for several attempts at one packet the sets add up. A reader of an established session, over any transport and with either driver, gets the beginning of what was sent, or the one-time key of a packet it accepted is in such a set, or is one of 2^106 of the 2^234 if nothing was sent under it. The same from the first byte behind the keys on, for two endpoints with all the real functions and anybody between them who passes their keys on. Refuted: that one key gives every message its own tag (with r = 0 all tags are equal).", "quantifier": "all keys, messages, tags, packets, sessions, transports and numbers of attempts", "why_tests_cant": "No test can try 2^106 keys; that a forgery passes for at most a few of them is a statement about the roots of polynomials.", "anchors": ["protocol/src/fschacha20poly1305.rs: FSChaCha20Poly1305::decrypt", "protocol/src/lib.rs: decrypt", "protocol/src/io.rs: ProtocolReader"]}
{"id": "C105", "title": "How much padding hides, counted", "statement": "Somebody counts the bytes that each payload, padding included, puts on the wire (padding on, cover decoys silent, blocking or async), and makes any test of the counts. Over the 1024^k equally likely outcomes of the draws for k payloads, the share of outcomes for which the test says yes differs between two lists of payloads by at most the sum of the differences of their sizes, in 1024ths. For one payload that is exact: a payload smaller by d <= 1024 is told from the larger, without ever erring for the larger, for d of the 1024 outcomes. It wears off with repetition: for k payloads of one size, the test that asks whether some count is too small for the larger size is right for all but (1024-d)^k of the 1024^k outcomes and never wrong for the larger. Refuted: that sizes 100 bytes apart stay hidden in half of the cases however often they are sent (eight times are enough).", "quantifier": "all payloads, numbers of payloads, outcomes of the draws, tests, keys and both flavors", "why_tests_cant": "A statement about every test an observer could make, over all 1024^k outcomes of the random draws; a test of the code sees one outcome.", "anchors": ["traffic/src/lib.rs: TrafficShaper::pad", "traffic/src/io.rs: ShapedProtocolWriter::write", "traffic/src/futures.rs: writer task"]}
{"id": "C106", "title": "For how many keys and terminators two honest endpoints do not come together", "statement": "What C25 and C29 leave as conditions, counted. Garbage followed by its terminator is taken for what it is unless the terminator is in a list that the garbage alone determines, with one entry for each byte of the garbage (so at most 4095 of the 2^128 strings of 16 bytes), whatever follows; with a terminator of the list the receiver takes a proper beginning of the garbage for the garbage. Of the 2^512 strings of 64 bytes exactly 2^480 are answered with V1Protocol, one in 2^32; with the prefix of 16 bytes that the BIP compares it would be one in 2^128. With the real functions, two honest endpoints come together and deliver everything unless a key begins with the magic or a terminator is in the list of the garbage it follows. Refuted: that a key taken for V1 begins with the whole prefix of the BIP.", "quantifier": "all garbage, terminators, keys, bytes that follow, decoys, payloads and both flavors", "why_tests_cant": "A test tries one garbage and one terminator; a coincidence in 2^32 or 2^116 is not met by testing.", "anchors": ["protocol/src/handshake.rs: receive_garbage", "protocol/src/handshake.rs: receive_key", "protocol/src/handshake.rs: split_garbage"]}
{"id": "C107", "title": "Decoys of cover traffic leave on a grid of 100 ms, and a second in five has none", "statement": "A task that is polled when its ticks are due takes its i-th tick, and makes its decoys, exactly 100 i ms after its start; so does a decoy thread that takes no time for its work. Over a transport that does not hold it up, such a task writes nothing at any other time unless there is a command: whatever leaves off the grid is the application's. In n ticks with nothing to do for the application, of the 100^n outcomes of the draws that decide about a decoy exactly 85^n leave nothing on the wire, whatever the other draws, and j of the ticks have a decoy for exactly (n over j) 15^j 85^(n-j); the same for the blocking thread. Refuted: that decoys come at random intervals (README) in the sense that any time may have one.", "quantifier": "all runs of task and thread with a clock, configurations with cover decoys, outcomes, numbers of ticks, keys", "why_tests_cant": "Tests neither measure when decoys leave nor count over all outcomes of the draws.", "anchors": ["traffic/src/futures.rs: writer_task, decoy_interval", "traffic/src/io.rs: decoy_thread", "traffic/src/lib.rs: TrafficShaper::decoy"]}
{"id": "C108", "title": "Padding hides no size from somebody who sees when bytes leave", "statement": "The decoy that pads a payload is written and flushed on its own, before the payload. Take a transport that takes what it is given, directly or behind a BufWriter of any capacity, and somebody who sees after every operation how many bytes are on the wire. Whatever is written, and whatever cover decoys come in between, the steps in which that number goes up are exactly the packets, each with its size. With padding and no cover decoys every second step is the size of a payload, plus 20, for every outcome of the draws: two lists of payloads that look alike have the same sizes. With cover decoys that come when their timer runs out (C107) the same holds of what leaves at any other time. Refuted: that padding makes it hard to tell where a message ends and hides sizes (README) within the 1023 bytes that C85 leaves to somebody who only counts bytes; and that the padding follows the payload (README). Over any scripted transport, whatever fails, a turn gives the same result, cipher, shaper and writer as the task and the threads of the other properties; a decoy that cannot be written is nobody's error.", "quantifier": "all payloads, draws, configurations, ciphers, both flavors, orders of writes and ticks, all writers that send what they take at once or when flushed", "why_tests_cant": "Tests look at the bytes a session wrote in the end, not at when they leave, and not at all outcomes of the draws.", "anchors": ["traffic/src/io.rs: ShapedProtocolWriter::write", "traffic/src/futures.rs: writer_task, command branch", "protocol/src/io.rs: ProtocolWriter::write", "protocol/src/futures.rs: ProtocolWriter::write"]}
{"id": "C109", "title": "How long a command waits for the async writer task behind ticks that are due", "statement": "The task chooses by an even coin between the next command and the next tick of the decoy timer when both are there, and a task that was held up has all the ticks it missed due at once (C97). With at least n commands waiting, at least n ticks due and a transport that takes what it is given, n turns serve as many commands as tosses fell for them, in order, each answered with success, and take the other turns for ticks: of the 2^n outcomes exactly (n over j) serve j commands. The next command waits behind exactly j ticks for one outcome in 2^(j+1), and whatever the tosses never behind more ticks than are due; a task that is polled when its ticks are due makes it wait for one at most. Refuted: that there is a number of turns after which a waiting command has been served for certain.", "quantifier": "all queues of commands, numbers of turns, clocks, tosses, configurations, draws and ciphers", "why_tests_cant": "A test sees one run of the coin, and its timer is hardly ever late.", "anchors": ["traffic/src/futures.rs: writer_task, select!", "traffic/src/futures.rs: writer_task, decoy_interval"]}
{"id": "C110", "title": "What shaping costs, at most and in the mean", "statement": "On every schedule, over every transport and whatever fails, a shaped async writer has written at most the payloads it was given with 20 bytes each, 1044 bytes for each of them if it pads, and 1044 bytes for each 100 ms that passed and one more if it sends cover decoys; a blocking one likewise, without the one more. Over all outcomes of the draws, with a transport that takes what it is given, padding costs exactly 532.5 bytes a payload in the mean, whatever the payloads, and cover decoys 79.875 bytes a tick, at ten ticks a second about 799 bytes a second.", "quantifier": "all payloads, schedules, clocks, transports, failures, configurations, draws and ciphers, both flavors; for the means all outcomes of any number of draws", "why_tests_cant": "A test sees one schedule and one outcome; a mean over 100^n * 1024^n outcomes cannot be run.", "anchors": ["traffic/src/lib.rs: TrafficShaper::decoy", "traffic/src/lib.rs: TrafficShaper::pad", "traffic/src/io.rs: decoy_thread", "traffic/src/futures.rs: writer_task"]}
{"id": "C111", "title": "How long dropping a blocking shaped writer takes", "statement": "drop sets the flag and joins the decoy thread, which tests the flag only before it sleeps for 100 ms. On every schedule, if the thread sleeps when drop is called, drop does not return before the thread was to wake up, which is at most 100 ms later. If the thread is not late it is gone 100 ms after the call, and has made at most one more decoy in between. From every reachable state drop can return within 100 ms and five moves of the thread. Refuted: that drop can always return in less than 100 ms; so a caller, for instance an executor that drops the writer, may be blocked for that long.", "quantifier": "all schedules, clocks, transports, configurations, draws and ciphers", "why_tests_cant": "Tests drop the writer at one moment and do not measure how long it takes.", "anchors": ["traffic/src/io.rs: Drop for ShapedProtocolWriter", "traffic/src/io.rs: decoy_thread"]}
{"id": "C112", "title": "For how few keys a handshake completes on bytes that were not made for it", "statement": "The coincidences that C94 and C103 leave open, counted. In given bytes behind the peer's key an endpoint can find at most 4096 garbage terminators, one for each place, of the 2^128 there are, and its search finds exactly these. What follows a terminator can be one of at most 3999999 packets, and each of them fits 2^106 of the 2^234 clamped one-time keys. So whatever is played to an endpoint with real tags, over any transport and with either driver, for instance a recording of other sessions or what an attempt that was given up left over, determines, before the keys of the endpoint are known, at most 4096 terminators and for each of them less than one in 2^106 of the one-time keys; and the handshake completes only if the endpoint's keys give one of these terminators and, for its first packet, one of the one-time keys that go with it.", "quantifier": "all streams, segmentations and transports, secret keys, roles, networks, garbage and decoys, both flavors", "why_tests_cant": "An event of one in 2^222 keys is not met in any test.", "anchors": ["protocol/src/handshake.rs: receive_garbage", "protocol/src/handshake.rs: receive_version", "protocol/src/io.rs: Protocol::new", "protocol/src/futures.rs: Protocol::new"]}
{"id": "C113", "title": "Two endpoints whose writers hold bytes back come together", "statement": "C63 and C92 join endpoints whose writers send what they take at once, C93 looks at one endpoint with a writer that holds bytes back. Here each of two honest endpoints has a writer that may keep what it took for as long as no flush succeeds, and may be not ready any number of times, but does not fail: for instance a BufWriter of any capacity over a transport that takes some bytes at a time. Whatever the order in which the two run, whatever the writers keep and however the bytes arrive, the number of operations other than those for which a writer is not ready is at most 8 and three times the number of bytes on the wire, so the two do not wait for each other for ever; and they come to rest only when both have completed, each with the other's keys, with nothing held back by a writer and nothing left unread.", "quantifier": "all keys, garbage and decoys that fit, writers of this kind (a different one for each endpoint), both flavors for each endpoint, all interleavings and segmentations", "why_tests_cant": "A test runs one interleaving with one writer, and an endpoint that left out a flush would still pass with a writer that holds nothing back.", "anchors": ["protocol/src/io.rs: Protocol::new", "protocol/src/futures.rs: Protocol::new", "protocol/src/handshake.rs: send_version", "protocol/src/handshake.rs: receive_key"]}
{"id": "C114", "title": "A BufWriter neither causes nor cures a standstill of the handshake", "statement": "C63 says with which sizes two endpoints, joined by pipes of a bounded capacity, wait for each other for ever. The same with BufWriters of any sizes between the endpoints and the pipes: whatever the order in which they run and whatever the pipes take and offer at a time, the number of operations that do something is at most 8 and four times the number of bytes on the wire; with the sizes of C63 neither endpoint completes, and with all others the two come to rest only when both have completed, with nothing in the buffers and nothing in the pipes. So the sizes of the BufWriters do not matter: an endpoint flushes before it reads. Refuted: that a BufWriter with room for everything an endpoint writes lets the two complete over any pipes.", "quantifier": "all keys, garbage and decoys that fit, sizes of the buffers, capacities of the pipes, both flavors for each endpoint, all interleavings and segmentations", "why_tests_cant": "A standstill needs two endpoints and a transport that is full in both directions; tests use duplex pipes of one size and no BufWriter.", "anchors": ["protocol/src/io.rs: Protocol::new", "protocol/src/futures.rs: Protocol::new", "protocol/src/handshake.rs: send_version", "protocol/src/handshake.rs: receive_key"]}
{"id": "C115", "title": "A clock before 1970 ends the writer task between packets, also if its writes are suspended", "statement": "The writer task reads the clock where it draws padding or a decoy, before the first await of the branch. While it is suspended inside a write it does not read it, so whatever the clock says meanwhile, a packet that has been begun is completed. If the clock ends the task, the task stands at its select: it and its transport are as they were at that select, except for one or two sizes that are recorded and not sent. On the wire are whole blocks for the first commands in order, with their results; if the runtime has not dropped the task, every other caller gets UnexpectedEof with the suggestion to abort, and no byte of its payload has been written. With a clock after 1970 the readings make no difference.", "quantifier": "all commands and orders of polls, ticks, commands, callers that give up and drops of the task, all clock readings, all suspensions of the transport, random sources and packet counts below 2^32", "why_tests_cant": "Needs a clock that goes back while a write is half done; the clock is the system's and cannot be set in a test.", "anchors": ["traffic/src/futures.rs: async fn writer_task", "traffic/src/futures.rs: shaper.pad(&cmd.payload, &stats)", "traffic/src/futures.rs: shaper.decoy(&stats)", "traffic/src/lib.rs: fn update_last_activity"]}
{"id": "C116", "title": "A transport that panics ends a shaped writer inside a packet, and the error does not tell whether the payload was sent", "statement": "The transport is the user's and may panic in write or flush. Whoever was writing, the application or the decoy thread, and after whatever byte: what the transport took is a prefix of whole blocks, for the calls that have returned and at most one more, in order, and everything in these blocks has been recorded. After it the blocking writer does not touch the transport and records nothing, every call of write panics, also if it was a decoy under which the transport panicked, and drop returns after at most five moves of the decoy thread. The writer task, wherever it was suspended before, is gone, and the callers it has not answered get UnexpectedEof with the suggestion to abort. A transport that does not panic, or is told to when it is not used, makes no difference. Refuted: that a payload answered with UnexpectedEof has not been sent; if the transport panics in flush the peer reads it.", "quantifier": "all schedules of both threads and all events of the task, any panic after any number of bytes, all transports, random sources, payloads and packet counts below 2^32", "why_tests_cant": "The tests' transports do not panic; where a panic leaves the other thread and the callers depends on the schedule.", "anchors": ["traffic/src/io.rs: self.writer_state.lock().unwrap()", "traffic/src/io.rs: fn decoy_thread", "traffic/src/io.rs: impl<W> Drop for ShapedProtocolWriter<W>", "traffic/src/futures.rs: async fn writer_task", "traffic/src/futures.rs: Writer task dropped response channel"]}
{"id": "C117", "title": "In a build with overflow checks a direction ends with a panic after 2^32 - 1 packets, also of decoys", "statement": "With overflow checks a direction of a session sends exactly 2^32 - 1 packets, whatever is in them and decoys included; the next one panics in the length cipher's packet counter before anything is given to the transport. From then on every call of write of the plain writers panics. A blocking shaped writer gives nothing more to the transport and returns from no call: a call that gets the mutex panics within three moves, with padding or without; if a decoy is due instead, the decoy thread panics and poisons the mutex, so that the application's next call panics too. The suspended writer task gives nothing more to the transport and answers no caller: the next command or decoy ends it, and the callers it has not answered get UnexpectedEof. Refuted: that a call of write of a sound payload returns.", "quantifier": "all sequences of packets, key materials and roles; all payloads; all schedules of both threads and all events of the task from any state with such a cipher", "why_tests_cant": "2^32 packets are out of reach of a test, and where the panic leaves the other thread and the callers depends on the schedule.", "anchors": ["protocol/src/fschacha20poly1305.rs: if (self.chunk_counter + 1) % REKEY_INTERVAL as u32 == 0", "traffic/src/io.rs: self.writer_state.lock().unwrap()", "traffic/src/io.rs: fn decoy_thread", "traffic/src/futures.rs: async fn writer_task", "traffic/src/futures.rs: Writer task dropped response channel"]}
{"id": "C118", "title": "In a build with overflow checks the peer's 2^32-th packet makes a reader panic at its length", "statement": "With overflow checks a session decrypts at most 2^32 - 1 length prefixes, in any order of calls of all its functions, whether or not the packets authenticate and decoys included; after exactly that many, and not before, the next one panics, whatever its three bytes are. A blocking reader with such a cipher panics when it has three bytes, before it reads any of the packet, and without them gives the transport's error with the cipher unchanged. A poll of an asynchronous reader between packets panics when the three bytes are complete; every other poll leaves the cipher and the place unchanged and gives no payload, so this holds over all polls and cancellations. Refuted: that no bytes of the peer make a reader panic.", "quantifier": "all key materials, roles and sequences of calls of the session's functions; all transports, readers and futures from any state with such a cipher", "why_tests_cant": "2^32 packets are out of reach of a test.", "anchors": ["protocol/src/fschacha20poly1305.rs: if (self.chunk_counter + 1) % REKEY_INTERVAL as u32 == 0", "protocol/src/lib.rs: pub fn decrypt_packet_len", "protocol/src/io.rs: decrypt_packet_len", "protocol/src/futures.rs: decrypt_packet_len"]}
{"id": "C119", "title": "What a peer that speaks V1 makes the handshake say", "statement": "The handshake answers V1Protocol only if the peer has sent at least 64 bytes that begin with the network magic, whatever the writing side does; with a valid key, allowed garbage and a writer that takes everything it answers so in exactly that case, and with fewer than 64 bytes it reports the end of the stream. So a peer that sends V1 messages is told apart when they have 64 bytes together, for which one payload of 40 bytes is enough (a version message has more), and a peer that closes after less is reported as UnexpectedEof with the suggestion RetryV1. Refuted: that every peer that speaks V1 makes the crate suggest RetryV1; the one that says so itself gives an error without a suggestion.", "quantifier": "all magics, roles, keys, garbage, decoys, transports, drivers, and all lists of V1 messages", "why_tests_cant": "Tests send one V1 message at most; that nothing else gives V1Protocol, and what short messages give, is about every stream.", "anchors": ["protocol/src/handshake.rs: if self.magic == their_magic", "protocol/src/io.rs: handshake.receive_key(remote_ellswift_buffer)?", "protocol/src/futures.rs: handshake.receive_key(remote_ellswift_buffer)?"]}
{"id": "C120", "title": "Which errors each function can return, and which of them the documentation lists", "statement": "For each function of the handshake, the ciphers and the blocking and asynchronous I/O, the kinds of errors it can return are exactly those of a list: none else in any call, and each in some call. For the functions without I/O the documentation lists all of them, and three more that never occur: SecretGeneration from receive_key and from_ecdh, and Decryption from send_version. A write fails with an error of the transport only, also where its documentation speaks of errors of the encryption; a blocking read can also give PacketTooBig and Decryption, an asynchronous one only Decryption; none gives CiphertextTooSmall or BufferTooSmall. Refuted: that the list of the I/O handshake, which has Io only, is complete (six internal errors occur), and that every listed error can occur.", "quantifier": "all states, arguments of the sizes the types prescribe, transports, drivers, polls and cancellations; every environment that satisfies the laws", "why_tests_cant": "That an error never occurs is a statement about all calls; tests look for single errors only.", "anchors": ["protocol/src/handshake.rs: /// * `SecretGeneration` - Failed to derive session keys from ECDH.", "protocol/src/handshake.rs: /// * `Decryption` - Cipher operation failed.", "protocol/src/io.rs: /// * `Io` - Includes a flag for if the remote probably only understands the V1 protocol.", "protocol/src/lib.rs: /// * `SecretGeneration` - If key derivation fails.", "protocol/src/futures.rs: /// * `Io` - Includes a flag for if the remote probably only understands the V1 protocol."]}
{"id": "C121", "title": "Which errors a shaped session gives, and that the suggestion is not a function of the error", "statement": "A blocking shaped write returns errors of the transport only, each with the suggestion that belongs to its kind, in every schedule of the threads. An asynchronous one does so too, or, exactly when the task is gone and has not answered, gives UnexpectedEof with the suggestion Abort, for any polls, suspensions and events. Setting up a shaped endpoint gives the errors of the plain handshake except TooMuchGarbage, each of which occurs, with both drivers and every generator, configuration, key, peer and transport. Refuted: that errors of the same kind have the same suggestion: the same UnexpectedEof comes with RetryV1 from the transport and with Abort from the task.", "quantifier": "all environments, generators, shapers, ciphers, transports, schedules and events", "why_tests_cant": "That no other error occurs is about all schedules; no test lets a shaped write fail.", "anchors": ["traffic/src/io.rs: state.writer.write(&decoy)?;", "traffic/src/futures.rs: Writer task terminated unexpectedly", "traffic/src/futures.rs: Writer task dropped response channel", "protocol/src/io.rs: ProtocolFailureSuggestion::RetryV1"]}
