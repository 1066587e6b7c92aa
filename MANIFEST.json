{
 "claims": [
  {
   "property": "C01",
   "status": "proved",
   "theorems": [
    "C01_m1_round_trip"
   ],
   "note": ""
  },
  {
   "property": "C02",
   "status": "proved",
   "theorems": [
    "C02_m1_acceptance"
   ],
   "note": ""
  },
  {
   "property": "C03",
   "status": "proved",
   "theorems": [
    "C03_m2_round_trip"
   ],
   "note": ""
  },
  {
   "property": "C04",
   "status": "proved",
   "theorems": [
    "C04_m3_m4_round_trip"
   ],
   "note": ""
  },
  {
   "property": "C05",
   "status": "proved",
   "theorems": [
    "C05_acceptance",
    "C05_empty"
   ],
   "note": ""
  },
  {
   "property": "C06",
   "status": "proved",
   "theorems": [
    "C06_round_trip"
   ],
   "note": ""
  },
  {
   "property": "C07",
   "status": "proved",
   "theorems": [
    "C07_multi_round_trip"
   ],
   "note": ""
  },
  {
   "property": "C08",
   "status": "proved",
   "theorems": [
    "C08_multi_acceptance"
   ],
   "note": ""
  },
  {
   "property": "C09",
   "status": "partial",
   "theorems": [
    "C09_bad_peer_refuted",
    "C09_bad_peer_partial"
   ],
   "note": "False of the code: ValueError (truncated MultiAppPacket) and AttributeError (empty clear text) escape, for every library. Proved: the exact set of exceptions and of accepted clear texts."
  },
  {
   "property": "C10",
   "status": "partial",
   "theorems": [
    "C10_truncated_rejected_refuted",
    "C10_truncated_rejected_partial"
   ],
   "note": "The expectation is false of the code: the last message of a MultiAppPacket may be cut short and is then delivered. Proved: the counterexample, and that every cut before the last message body is rejected."
  },
  {
   "property": "C11",
   "status": "proved",
   "theorems": [
    "C11_a1_acceptance",
    "C11_a1_round_trip"
   ],
   "note": ""
  },
  {
   "property": "C12",
   "status": "proved",
   "theorems": [
    "C12_a2_acceptance",
    "C12_a2_round_trip"
   ],
   "note": ""
  },
  {
   "property": "C13",
   "status": "partial",
   "theorems": [
    "C13_alphabet_refuted",
    "C13_non_ascii_refuted",
    "C13_alphabet_partial"
   ],
   "note": "False of the code: a final newline and non-ASCII word characters are accepted. Proved: both counterexamples, and that every other ASCII byte is of the documented alphabet."
  },
  {
   "property": "C14",
   "status": "proved",
   "theorems": [
    "C14_disjoint"
   ],
   "note": ""
  },
  {
   "property": "C15",
   "status": "proved",
   "theorems": [
    "C15_wrong_length",
    "C15_fixed_size",
    "C15_right_length"
   ],
   "note": ""
  },
  {
   "property": "C16",
   "status": "proved",
   "theorems": [
    "C16_intact",
    "C16_every_fragmentation"
   ],
   "note": ""
  },
  {
   "property": "C17",
   "status": "proved",
   "theorems": [
    "C17_connection_loss"
   ],
   "note": ""
  },
  {
   "property": "C18",
   "status": "proved",
   "theorems": [
    "C18_arbitrary_stream",
    "C18_schedule_independent"
   ],
   "note": ""
  },
  {
   "property": "C19",
   "status": "proved",
   "theorems": [
    "C19_all_or_nothing"
   ],
   "note": ""
  },
  {
   "property": "C20",
   "status": "proved",
   "theorems": [
    "C20_intact",
    "C20_end_of_stream",
    "C20_arbitrary_stream",
    "C20_oversized"
   ],
   "note": "Connection reset (StreamReader.set_exception) is not modelled."
  },
  {
   "property": "C21",
   "status": "partial",
   "theorems": [
    "C21_com_exceptions_refuted",
    "C21_asyncio_never_com",
    "C21_com_exceptions_partial"
   ],
   "note": "False of AsyncioChannel, whose read failures are never ComExceptions (proved); proved for SocketChannel."
  },
  {
   "property": "C22",
   "status": "proved",
   "theorems": [
    "C22_nonces_unique",
    "C22_directions_disjoint",
    "C22_exhausted"
   ],
   "note": "Stated on the frames handed to the channel; hypothesis nacl_laws only for C22_exhausted."
  },
  {
   "property": "C23",
   "status": "proved",
   "theorems": [
    "C23_in_order"
   ],
   "note": "Under the NaCl laws (explicit hypothesis)."
  },
  {
   "property": "C24",
   "status": "proved",
   "theorems": [
    "C24_attacker"
   ],
   "note": "Reduction: prefix of what was written, or an exhibited forgery. Under the NaCl laws (explicit hypothesis)."
  },
  {
   "property": "C25",
   "status": "proved",
   "theorems": [
    "C25_no_desync",
    "C25_rejected_read"
   ],
   "note": "Under the NaCl laws (explicit hypothesis)."
  },
  {
   "property": "C26",
   "status": "proved",
   "theorems": [
    "C26_errors",
    "C26_io_errors"
   ],
   "note": "Hypothesis: the back end reports failures with its own exception (nacl_fail_laws)."
  },
  {
   "property": "C27",
   "status": "partial",
   "theorems": [
    "C27_last_authentic_refuted",
    "C27_last_authentic_partial"
   ],
   "note": "False of the code: the flag is in the clear header. Proved: an attacker can choose it freely, and that nothing else can be changed."
  },
  {
   "property": "C28",
   "status": "proved",
   "theorems": [
    "C28_linked",
    "C28_in_order"
   ],
   "note": "Under the NaCl laws (explicit hypothesis); the time checker accepts later times."
  },
  {
   "property": "C29",
   "status": "partial",
   "theorems": [
    "C29_large_batch_refuted"
   ],
   "note": "False of the code: for every batch of more than 65535 short messages only the first n mod 65536 can be read. C28 covers all smaller batches."
  },
  {
   "property": "C30",
   "status": "proved",
   "theorems": [
    "C30_m4_first_once"
   ],
   "note": "Under the NaCl laws (explicit hypothesis)."
  },
  {
   "property": "C31",
   "status": "proved",
   "theorems": [
    "C31_one_time_per_write",
    "C31_time_wraps"
   ],
   "note": "Under the NaCl laws (explicit hypothesis)."
  },
  {
   "property": "C32",
   "status": "proved",
   "theorems": [
    "C32_handshakes_complete",
    "C32_buffered_client_completes",
    "C32_conversation"
   ],
   "note": "Every schedule, every buffering option, under the NaCl laws (explicit hypothesis). With M4 buffered the server completes when the client first writes (the conversation theorem)."
  },
  {
   "property": "C33",
   "status": "proved",
   "theorems": [
    "C33_server_verified"
   ],
   "note": "Every completing execution, arbitrary network."
  },
  {
   "property": "C34",
   "status": "proved",
   "theorems": [
    "C34_client_verified"
   ],
   "note": "Every execution that returns normally; the A1/A2 path is the other alternative."
  },
  {
   "property": "C35",
   "status": "proved",
   "theorems": [
    "C35_client_agrees",
    "C35_server_agrees",
    "C35_roles_separated"
   ],
   "note": "Reduction: agreement, or an explicit hash collision, or an accepted signature on a text no listed run signed."
  },
  {
   "property": "C36",
   "status": "proved",
   "theorems": [
    "C36_silent_until_verified",
    "C36_buffered_writes_m1_only"
   ],
   "note": "Every execution."
  },
  {
   "property": "C37",
   "status": "partial",
   "theorems": [
    "C37_wanted_key_refuted",
    "C37_compare_partial",
    "C37_compare_ends",
    "C37_compare_quiet"
   ],
   "note": "False of the code: proved that wanted_server_sig_key has no influence on any execution. What holds: an application that compares the reported key itself gets the guarantee (C37_compare_partial), accepts the right honest server and no other (C37_compare_ends), and with buffer_M4 has sent nothing but M1 by then (C37_compare_quiet)."
  },
  {
   "property": "C38",
   "status": "proved",
   "theorems": [
    "C38_server_refuses",
    "C38_client_told"
   ],
   "note": "Every execution."
  },
  {
   "property": "C39",
   "status": "partial",
   "theorems": [
    "C39_no_such_server_refuted"
   ],
   "note": "False of the code: proved that the answer never depends on the address."
  },
  {
   "property": "C40",
   "status": "proved",
   "theorems": [
    "C40_server_answers",
    "C40_exchange",
    "C40_client",
    "C40_refusal"
   ],
   "note": "Every valid A1, every schedule of the exchange."
  },
  {
   "property": "C41",
   "status": "partial",
   "theorems": [
    "C41_bad_time_refuted"
   ],
   "note": "False of the code: proved that TypeError is raised for every such time, by server and client."
  },
  {
   "property": "C42",
   "status": "proved",
   "theorems": [
    "C42_first_frame"
   ],
   "note": "Every first frame, valid key pairs, NaCl laws as explicit hypothesis."
  },
  {
   "property": "C43",
   "status": "partial",
   "theorems": [
    "C43_empty_frame_refuted",
    "C43_client_completes_refuted",
    "C43_server_completes_refuted",
    "C43_refusing_partial"
   ],
   "note": "False of the code: proved that both peers go on with an empty frame, and that both complete the handshake with a peer that sends one and signs with a key of its own. What holds: if the time checker refuses 0 or the library makes no key from 32 zeros, no such handshake succeeds."
  },
  {
   "property": "C44",
   "status": "partial",
   "theorems": [
    "C44_library_selection_refuted",
    "C44_library_selection_partial"
   ],
   "note": "False of the code. Proved: the counterexample for every availability pattern, and what does hold of a returned library."
  },
  {
   "property": "C45",
   "status": "proved",
   "theorems": [
    "C45_singleton"
   ],
   "note": "Every history of constructions, with failing initialisers."
  },
  {
   "property": "C46",
   "status": "proved",
   "theorems": [
    "C46_mitm_transparent",
    "C46_fresh"
   ],
   "note": "Every program using a channel (no calls of write without a message)."
  },
  {
   "property": "C47",
   "status": "partial",
   "theorems": [
    "C47_tunnel_refuted",
    "C47_tunnel_partial"
   ],
   "note": "False of the code: proved that every write of a message fails after every history. Proved instead: callers that pass a tuple of messages get an ordered lossless queue in each direction. TunnelMP (multiprocessing pipes), whose write has the same fault, is in C127."
  },
  {
   "property": "C48",
   "status": "proved",
   "theorems": [
    "C48_counts",
    "C48_from_new"
   ],
   "note": ""
  },
  {
   "property": "C49",
   "status": "partial",
   "theorems": [
    "C49_reuse_refuted",
    "C49_reuse_partial"
   ],
   "note": "False of the code for frames shorter than the fixed part. Proved: the counterexample, and equality for all frames covering the fixed part."
  },
  {
   "property": "C50",
   "status": "partial",
   "theorems": [
    "C50_server_key_sent_refuted",
    "C50_server_key_sent_partial"
   ],
   "note": "False of the code without create_opt_fields() between flag and assignment. Proved: the counterexample for every key, and the positive statement with create_opt_fields()."
  },
  {
   "property": "C51",
   "status": "partial",
   "theorems": [
    "C51_last_is_final_refuted",
    "C51_until_last_partial",
    "C51_until_last_streams_partial",
    "C51_until_last_refuted"
   ],
   "note": "False of the code for every final batch of 2..65535 short messages: a server that reads until last stops after the first of them (until_last_refuted, end to end). For every other final batch it gets all messages and stops exactly after the last one (until_last_partial; over sockets and asyncio streams until_last_streams_partial)."
  },
  {
   "property": "C52",
   "status": "partial",
   "theorems": [
    "C52_retry_first_write_refuted",
    "C52_lost_refuted",
    "C52_arrived_partial"
   ],
   "note": "False of the code; proved for every failure and every later history. C52_lost_refuted: if the frames are lost the waiting server answers everything later with BadPeer. C52_arrived_partial: if they arrive, M4 is the first of them."
  },
  {
   "property": "C53",
   "status": "partial",
   "theorems": [
    "C53_unverified_key_refuted",
    "C53_last_check_partial"
   ],
   "note": "False of the code: proved for every claimed key. C53_last_check_partial: it happens only when the very last check, the signature in M4, fails."
  },
  {
   "property": "C54",
   "status": "proved",
   "theorems": [
    "C54_keys_from_sec"
   ],
   "note": "The key generation functions of the C library are assumed to follow NaCl (explicit hypothesis)."
  },
  {
   "property": "C55",
   "status": "partial",
   "theorems": [
    "C55_explicit_type_refuted"
   ],
   "note": "False of the code: proved for every explicit type and every later history."
  },
  {
   "property": "C56",
   "status": "partial",
   "theorems": [
    "C56_log_buffer_refuted"
   ],
   "note": "False of the code: proved for every program."
  },
  {
   "property": "C57",
   "status": "partial",
   "theorems": [
    "C57_shared_clock_refuted",
    "C57_alone_partial",
    "C57_outcome_partial"
   ],
   "note": "False of the code: every session can be disturbed by another one. C57_alone_partial: sessions that run one after the other, and sessions with NullTimeKeeper, are not disturbed. C57_outcome_partial: under every interleaving only the times change, never what the programs on the two sides return."
  },
  {
   "property": "C58",
   "status": "proved",
   "theorems": [
    "C58_handshake_bytes"
   ],
   "note": "Every schedule; under the NaCl laws (explicit hypothesis)."
  },
  {
   "property": "C59",
   "status": "proved",
   "theorems": [
    "C59_native_wrapper"
   ],
   "note": "The C functions are assumed to follow the documented NaCl interface (explicit hypothesis)."
  },
  {
   "property": "C60",
   "status": "proved",
   "theorems": [
    "C60_failures_uniform"
   ],
   "note": "No assumption on the C library."
  },
  {
   "property": "C61",
   "status": "partial",
   "theorems": [
    "C61_pure_usable_refuted"
   ],
   "note": "False of the code: proved for every history of constructions."
  },
  {
   "property": "C62",
   "status": "proved",
   "theorems": [
    "C62_over_socket",
    "C62_over_asyncio"
   ],
   "note": "Every program, stream, segmentation and failure."
  },
  {
   "property": "C63",
   "status": "proved",
   "theorems": [
    "C63_streams_follow_frames",
    "C63_conversation",
    "C63_read_sync_is_a_run"
   ],
   "note": "Every schedule and segmentation; unbounded network buffers; batches under 2^31 bytes; NaCl laws as explicit hypothesis for the conversation."
  },
  {
   "property": "C64",
   "status": "proved",
   "theorems": [
    "C64_server_over_socket",
    "C64_client_over_socket"
   ],
   "note": "Every run over a socket that completes; for the server the A1/A2 path is the other alternative."
  },
  {
   "property": "C65",
   "status": "proved",
   "theorems": [
    "C65_message_pipe",
    "C65_pipe_over_streams",
    "C65_echo"
   ],
   "note": "Every pair of user programs writing fewer than 2^62 messages of sendable size; a client that buffers M4 must write first (C66). NaCl laws as explicit hypotheses."
  },
  {
   "property": "C66",
   "status": "partial",
   "theorems": [
    "C66_buffered_m4_deadlock_refuted",
    "C66_write_first_partial"
   ],
   "note": "False of the code: proved for every pair of programs whose client reads first. C66_write_first_partial: true of all pairs of programs whose client writes first."
  },
  {
   "property": "C67",
   "status": "proved",
   "theorems": [
    "C67_sha512"
   ],
   "note": "All messages under 2^64 bytes; FIPS 180-4 written down separately, round constants derived from the primes."
  },
  {
   "property": "C68",
   "status": "proved",
   "theorems": [
    "C68_salsa20_core"
   ],
   "note": "All keys and inputs."
  },
  {
   "property": "C69",
   "status": "partial",
   "theorems": [
    "C69_xsalsa20_partial",
    "C69_block_257",
    "C69_xsalsa20_refuted"
   ],
   "note": "True up to 16448 bytes; false beyond: block 257 is encrypted under block number 769, for every key and message."
  },
  {
   "property": "C70",
   "status": "proved",
   "theorems": [
    "C70_poly1305"
   ],
   "note": "Every message length and key; RFC 8439 written down separately."
  },
  {
   "property": "C71",
   "status": "partial",
   "theorems": [
    "C71_box_partial",
    "C71_box_refuted"
   ],
   "note": "True for messages up to 16416 bytes; false beyond (C69)."
  },
  {
   "property": "C72",
   "status": "proved",
   "theorems": [
    "C72_open_accepts"
   ],
   "note": "Every input; nonce of 24 and key of 32 bytes."
  },
  {
   "property": "C73",
   "status": "partial",
   "theorems": [
    "C73_roundtrip_partial",
    "C73_roundtrip_refuted",
    "C73_open_empty"
   ],
   "note": "False of the code for every non-empty message; true for the empty one."
  },
  {
   "property": "C74",
   "status": "partial",
   "theorems": [
    "C74_forged_box_refuted"
   ],
   "note": "False of the code: NameError for every forged box."
  },
  {
   "property": "C75",
   "status": "proved",
   "theorems": [
    "C75_x25519"
   ],
   "note": "All scalars and coordinates; RFC 7748 written down separately."
  },
  {
   "property": "C76",
   "status": "proved",
   "theorems": [
    "C76_keypair"
   ],
   "note": "All byte strings."
  },
  {
   "property": "C77",
   "status": "proved",
   "theorems": [
    "C77_beforenm"
   ],
   "note": "All keys."
  },
  {
   "property": "C78",
   "status": "partial",
   "theorems": [
    "C78_low_order_refuted"
   ],
   "note": "False of the code: the zero public key yields one key for all secret keys."
  },
  {
   "property": "C79",
   "status": "proved",
   "theorems": [
    "C79_agreement"
   ],
   "note": "All secret keys. Through the group law of the Edwards curve over the integers modulo 2^255-19, whose primality is proved by a certificate."
  },
  {
   "property": "C80",
   "status": "proved",
   "theorems": [
    "C80_sign_keypair"
   ],
   "note": "All byte strings; RFC 8032 written down separately."
  },
  {
   "property": "C81",
   "status": "proved",
   "theorems": [
    "C81_sign"
   ],
   "note": "All secret keys, all messages under 2^64 - 64 bytes."
  },
  {
   "property": "C82",
   "status": "proved",
   "theorems": [
    "C82_sign_open"
   ],
   "note": "All seeds, all messages under 2^64 - 64 bytes. Uses that the base point has order L (proved by computation)."
  },
  {
   "property": "C83",
   "status": "proved",
   "theorems": [
    "C83_open_exact"
   ],
   "note": "All inputs under 2^64 bytes, all keys of at least 32 bytes."
  },
  {
   "property": "C84",
   "status": "partial",
   "theorems": [
    "C84_valid_accepted_partial",
    "C84_malleable_refuted",
    "C84_wide_key_refuted",
    "C84_modulo_partial",
    "C84_same_nonce_partial"
   ],
   "note": "False of the code: valid signatures are accepted, but S + L is accepted in place of S for every key and message, and keys that encode no point are accepted. What holds: under a key that RFC 8032 can decode a signature is accepted exactly if it is valid with S taken modulo L; and under any key two accepted signatures of one message with the same first half have the same S modulo L."
  },
  {
   "property": "C85",
   "status": "partial",
   "theorems": [
    "C85_weak_key_refuted",
    "C85_own_key_partial"
   ],
   "note": "False of the code: key and signature exhibited, all messages. What holds: under a public key made from a seed (any seed), a signature opens two messages only if their SHA-512 hashes, with the first half of the signature and the key in front, agree modulo L."
  },
  {
   "property": "C86",
   "status": "partial",
   "theorems": [
    "C86_bad_signature_refuted"
   ],
   "note": "False of the code: NameError for every rejected input (C83)."
  },
  {
   "property": "C87",
   "status": "proved",
   "theorems": [
    "C87_standards"
   ],
   "note": "All inputs. That the C libraries compute the published algorithms is their documentation; the algorithms are written down in ShaSpec, SalsaSpec, PolySpec, CurveSpec, EdSpec and StdLib."
  },
  {
   "property": "C88",
   "status": "proved",
   "theorems": [
    "C88_pipe",
    "C88_echo"
   ],
   "note": "As C65, without any hypothesis about cryptography."
  },
  {
   "property": "C89",
   "status": "proved",
   "theorems": [
    "C89_linearizable",
    "C89_delivery"
   ],
   "note": "All task sets with at most one reader, all schedules. The channel below is taken to accept the frames of a write when it is called, as both channels of channel.py do."
  },
  {
   "property": "C90",
   "status": "partial",
   "theorems": [
    "C90_several_readers_partial",
    "C90_several_readers_refuted"
   ],
   "note": "False of the code as to the order; no message is lost, duplicated or made up (all schedules)."
  },
  {
   "property": "C91",
   "status": "partial",
   "theorems": [
    "C91_cancelled_read_partial",
    "C91_cancelled_read_refuted",
    "C91_not_cancelled"
   ],
   "note": "False of the code once the length prefix has arrived: it is lost, and the following reads take the contents of the message for frames. True before that."
  },
  {
   "property": "C92",
   "status": "partial",
   "theorems": [
    "C92_retry_refuted",
    "C92_lost_refuted",
    "C92_half_refuted",
    "C92_unsent_partial"
   ],
   "note": "False of the code: if the frames of the failed write arrive, the repeated messages arrive twice; if they are lost, nothing that is written later can be read any more. Even a write that raised before anything was sent can use up a counter and so end the channel, if its messages travel in several packets (C92_half_refuted). What holds: a write of one packet that raised before anything was sent changes nothing but the clock (C92_unsent_partial)."
  },
  {
   "property": "C93",
   "status": "partial",
   "theorems": [
    "C93_syncizer",
    "C93_library",
    "C93_channels_partial",
    "C93_channels_refuted",
    "C93_counts",
    "C93_a1a2_partial",
    "C93_a1a2_refuted",
    "C93_running",
    "C93_tunnel_refuted"
   ],
   "note": "False of the code for EncryptedChannelV2 and Tunnel channels, which inherit the empty methods of ByteChannel. Proved for all classes built by Syncizer and all stacks of the other channels."
  },
  {
   "property": "C94",
   "status": "partial",
   "theorems": [
    "C94_construct_partial",
    "C94_client_exact",
    "C94_client_thread_refuted",
    "C94_one_loop",
    "C94_session_channels",
    "C94_set_loop"
   ],
   "note": "False of the code for client and A1 sessions in a thread that has no loop yet; C94_client_exact says exactly when. The rest is proved."
  },
  {
   "property": "C95",
   "status": "proved",
   "theorems": [
    "C95_frames_shape",
    "C95_contents_hidden"
   ],
   "note": "All histories of an application channel."
  },
  {
   "property": "C96",
   "status": "proved",
   "theorems": [
    "C96_server_reads",
    "C96_client_reads",
    "C96_server_standards",
    "C96_client_standards"
   ],
   "note": "Both roles. Batches must fit one write (C29) and the receiving time checker must accept all times after the first, otherwise a rejected message is skipped. The laws assumed of NaCl hold of the published algorithms (C87)."
  },
  {
   "property": "C97",
   "status": "partial",
   "theorems": [
    "C97_client_errors",
    "C97_server_errors",
    "C97_client_standards",
    "C97_server_standards",
    "C97_standards",
    "C97_caught",
    "C97_peer_errors_are_com_refuted",
    "C97_first_byte_refuted"
   ],
   "note": "False of the code: AssertionError, AttributeError and ValueError reach the caller. C97_client_errors and C97_server_errors list every exception that can be raised, at which frame and why, for all peers; with the published algorithms and clocks that accept all times these three are the only ones besides ComException."
  },
  {
   "property": "C98",
   "status": "partial",
   "theorems": [
    "C98_server_partners",
    "C98_client_partners",
    "C98_server_replayed_refuted",
    "C98_client_replayed_refuted"
   ],
   "note": "False of the code as stated: sessions take enc_keypair from the user and neither generate nor require a fresh one. C98_server_replayed_refuted and C98_client_replayed_refuted: with the same enc_keypair, every recorded connection replays completely - a later session that reads the same frames completes, reports the same remote key, and its channel delivers the same messages, whatever the clock says. Proved when the enc_keypairs of the sessions are pairwise distinct (C98_server_partners, C98_client_partners): completed sessions have pairwise distinct partner runs, or a hash collision or a forged signature is exhibited."
  },
  {
   "property": "C99",
   "status": "proved",
   "theorems": [
    "C99_server_named",
    "C99_client_named"
   ],
   "note": "Both ends name each other, or an exhibited hash collision, forged signature or forged box. Example C99_example."
  },
  {
   "property": "C100",
   "status": "partial",
   "theorems": [
    "C100_pairs_unique",
    "C100_client_pad_refuted",
    "C100_server_pad_refuted"
   ],
   "note": "False of the code as stated: the session key is a function of the two enc_keypairs, the nonces are the same in every connection, and enc_keypairs are not required to be fresh. C100_client_pad_refuted and C100_server_pad_refuted: of any two connections with the same key pairs, an observer has the exclusive or of the clear texts, frame by frame (published algorithms, all back ends). Proved when session keys are used once per role (C100_pairs_unique): all frames of all clients and servers have pairwise different (key, nonce)."
  },
  {
   "property": "C101",
   "status": "proved",
   "theorems": [
    "C101_client_times",
    "C101_server_times",
    "C101_client_numbers",
    "C101_server_numbers"
   ],
   "note": "Keeper of its own: two sessions of one process share it (C57)."
  },
  {
   "property": "C102",
   "status": "partial",
   "theorems": [
    "C102_socket_server",
    "C102_async_server",
    "C102_echo_pair",
    "C102_echo_pair_ends",
    "C102_async_close_refuted"
   ],
   "note": "False of the code in one clause (C102_async_close_refuted): if the client closes without the empty message while the asyncio server waits for the next one, IncompleteReadError escapes and the server does not close the connection. Proved: everything else, and exactly when the asyncio server closes (C102_async_server)."
  },
  {
   "property": "C103",
   "status": "proved",
   "theorems": [
    "C103_flag_pipe",
    "C103_flags_over_streams"
   ],
   "note": "Between honest peers; the flag is not protected (C27). Example C103_example."
  },
  {
   "property": "C104",
   "status": "partial",
   "theorems": [
    "C104_example1",
    "C104_example3",
    "C104_server_never_raises_refuted"
   ],
   "note": "False of the code in the last clause (C104_server_never_raises_refuted): an A1 request makes the example servers raise AttributeError. Proved: both conversations; in example 3 the server then waits for another handshake, and any ComException ends it. Example 3 is proved for whole frames (its server may join two huge messages into a frame that does not fit)."
  },
  {
   "property": "C105",
   "status": "proved",
   "theorems": [
    "C105_m1",
    "C105_m2",
    "C105_m3_m4",
    "C105_encrypted",
    "C105_app",
    "C105_a1_a2",
    "C105_complete",
    "C105_new",
    "C105_refused"
   ],
   "note": "C105_complete: the fields are all there is of an object; C105_new: what they are in a new one. For objects whose fixed part has its size, which new objects have and parsing keeps (clauses of the theorems). M1's ServerSigKey is assigned in C50."
  },
  {
   "property": "C106",
   "status": "proved",
   "theorems": [
    "C106_arrays",
    "C106_refused",
    "C106_other_names",
    "C106_accessors"
   ],
   "note": "C106_accessors ties the tables to the accessors used elsewhere in the model."
  },
  {
   "property": "C107",
   "status": "partial",
   "theorems": [
    "C107_serialising_refuted",
    "C107_serialising_partial"
   ],
   "note": "False of the code: serialising an M2 that says NoSuchServer sets its LastFlag for good. Proved: nothing else is changed, and the flag only from false to true."
  },
  {
   "property": "C108",
   "status": "partial",
   "theorems": [
    "C108_numbers_refuted",
    "C108_misspelt_refuted",
    "C108_flags_misspelt_refuted"
   ],
   "note": "False of the code, for every integer field and for every name that is no field."
  },
  {
   "property": "C109",
   "status": "proved",
   "theorems": [
    "C109_client",
    "C109_server",
    "C109_client_same",
    "C109_server_same"
   ],
   "note": "C109_*_same carry the results about handshakes with a stateless checker over to checkers with state."
  },
  {
   "property": "C110",
   "status": "proved",
   "theorems": [
    "C110_channel",
    "C110_same"
   ],
   "note": ""
  },
  {
   "property": "C111",
   "status": "proved",
   "theorems": [
    "C111_app",
    "C111_multi"
   ],
   "note": ""
  },
  {
   "property": "C112",
   "status": "proved",
   "theorems": [
    "C112_hash",
    "C112_sign_keypair",
    "C112_sign",
    "C112_sign_open",
    "C112_round_trip"
   ],
   "note": "Refinement of C67 and C80-C83 to a model with the exceptions of lists. That the NameError ought to be BadSignatureException is C86."
  },
  {
   "property": "C113",
   "status": "proved",
   "theorems": [
    "C113_box_keypair",
    "C113_beforenm",
    "C113_afternm",
    "C113_open_afternm",
    "C113_shared_key"
   ],
   "note": "Refinement of C71-C79 to a model with the exceptions of lists. Longer messages are sealed wrongly (C71) and opening never returns a message (C73)."
  },
  {
   "property": "C114",
   "status": "proved",
   "theorems": [
    "C114_seeds",
    "C114_short_sign",
    "C114_short_sign_open",
    "C114_short_beforenm",
    "C114_short_afternm",
    "C114_short_open_afternm"
   ],
   "note": ""
  },
  {
   "property": "C115",
   "status": "proved",
   "theorems": [
    "C115_operations"
   ],
   "note": "Back-end libraries are functions of the published algorithms (StdLib)."
  },
  {
   "property": "C116",
   "status": "partial",
   "theorems": [
    "C116_first_decides",
    "C116_generator_refuted"
   ],
   "note": "False of the code: proved for every history that starts with a construction that works with the default generator. What does hold of every history is C116_first_decides."
  },
  {
   "property": "C117",
   "status": "partial",
   "theorems": [
    "C117_session",
    "C117_client",
    "C117_server",
    "C117_refusal_refuted"
   ],
   "note": "False of the code in the last clause (C117_refusal_refuted): every A2 without entries, refusals among them, makes the client raise IndexError. The rest is proved."
  },
  {
   "property": "C118",
   "status": "proved",
   "theorems": [
    "C118_client",
    "C118_server"
   ],
   "note": "The clock (time keeper) is shared state of the process; the new object starts from the clock as the used object finds it. For the server, equality after success is stated for handshakes with a client (M1-M4)."
  },
  {
   "property": "C119",
   "status": "partial",
   "theorems": [
    "C119_stale_client_refuted",
    "C119_is_done_refuted",
    "C119_stale_channel_refuted",
    "C119_channel_partial"
   ],
   "note": "False of the code: a handshake that answers an A1 returns with the previous client's key and channel in place, is_done is never reset, and a failing client handshake keeps the old channel. Proved instead: after a successful handshake with a client nothing of the past is left but is_done (C118), and the server's channel is the new one or the old one, the old one only if no new one was made."
  },
  {
   "property": "C120",
   "status": "partial",
   "theorems": [
    "C120_no_false_alarm",
    "C120_forward",
    "C120_wrap_refuted"
   ],
   "note": "The last sentence is false of the code without a bound: readings of 2^32 and more wrap in the field (C120_wrap_refuted). Proved: the general statement for every checker (C120_no_false_alarm) and the last sentence for readings below 2^32 (C120_forward)."
  },
  {
   "property": "C121",
   "status": "partial",
   "theorems": [
    "C121_socket",
    "C121_refused_socket",
    "C121_tasks_partial",
    "C121_tasks_refuted"
   ],
   "note": "False of the code for asyncio (C121_tasks_refuted): if the server's session raises, nobody closes the connection and the client waits for ever. Proved: sockets, for all programs (C121_socket) and for refused times (C121_refused_socket); asyncio if the server's session returns (C121_tasks_partial)."
  },
  {
   "property": "C122",
   "status": "partial",
   "theorems": [
    "C122_examples",
    "C122_tasks",
    "C122_one_by_one_partial",
    "C122_one_by_one_refuted"
   ],
   "note": "The last clause is false of the code for sockets (C122_one_by_one_refuted). Proved: the first clause for both examples and both servers (C122_examples), for any connections that would end by themselves (C122_one_by_one_partial), and the last clause for asyncio (C122_tasks)."
  },
  {
   "property": "C123",
   "status": "proved",
   "theorems": [
    "C123_box",
    "C123_sign",
    "C123_as_seed",
    "C123_short"
   ],
   "note": ""
  },
  {
   "property": "C124",
   "status": "partial",
   "theorems": [
    "C124_box_partial",
    "C124_box_refuted",
    "C124_open",
    "C124_accepted_partial",
    "C124_message_refuted",
    "C124_short"
   ],
   "note": "False of the code: boxes above 16416 bytes are not NaCl's (C124_box_refuted, as in C71), and no non-empty message is ever written when a box is opened (C124_message_refuted, as in C73). Proved: NaCl's box up to 16416 bytes, what is accepted and refused for all inputs, boxes between any two fresh key pairs are accepted, and arguments that are too short raise."
  },
  {
   "property": "C125",
   "status": "partial",
   "theorems": [
    "C125_counts",
    "C125_counts_over_streams",
    "C125_example1",
    "C125_example3",
    "C125_handshake_bytes_refuted"
   ],
   "note": "False of the code: example_session1 buffers M4, so that the handshake bytes it prints are 200 instead of 320 and M4 is counted with the application data (C125_handshake_bytes_refuted). Proved: exactly what is printed, for all programs and requests, both buffering options, all schedules, and over sockets and asyncio streams; the totals are always right."
  },
  {
   "property": "C126",
   "status": "partial",
   "theorems": [
    "C126_returned",
    "C126_returns",
    "C126_flag_partial",
    "C126_flag_refuted",
    "C126_processes",
    "C126_processes_end",
    "C126_first_refuted"
   ],
   "note": "False of the code: with two clients is_session_active can be False while a session is active (C126_flag_refuted), and ClientServerPairA never resets it (last conjunct of C126_processes). Proved: that and when run_sessions returns, with all sessions over, sockets closed, the attribute False and the failures logged; that the attribute is right for a single client and never True without reason; and the result of ClientServerPairA.run_sessions, which is the exception of any failed client, not of the first (C126_first_refuted)."
  },
  {
   "property": "C127",
   "status": "partial",
   "theorems": [
    "C127_bytes_refuted",
    "C127_sessions_refuted",
    "C127_tuples_partial"
   ],
   "note": "False of the code: with messages passed as bytes every pair of programs stops at once with nothing sent (C127_bytes_refuted), a client session with TypeError while the server waits (C127_sessions_refuted). Proved instead for callers that pass the message in a tuple: whatever two programs do over a pair of queues they do over the TunnelMP, under every schedule. Missing: pipes of bounded capacity and ends that are closed."
  },
  {
   "property": "C128",
   "status": "partial",
   "theorems": [
    "C128_one_at_a_time",
    "C128_nonces",
    "C128_duplex_refuted"
   ],
   "note": "False of the code in its last part: while a read waits for the peer every other call raises RuntimeError, nothing is sent and the channel does not change until something arrives (C128_duplex_refuted). The rest is proved: for every schedule the calls that ran form a sequential history, each thread follows its program, refused calls have no effect (C128_one_at_a_time), and nonces are unique (C128_nonces). The check of the loop and its start are one step of the model."
  },
  {
   "property": "C129",
   "status": "partial",
   "theorems": [
    "C129_interleaved_refuted",
    "C129_locked_partial"
   ],
   "note": "False of the code without a lock: for messages of different lengths there is a schedule after which both calls have returned and every reader gets first a message that nobody wrote. Proved with a lock: every schedule delivers all messages of all calls, each thread's in order. Sending does not fail in this model."
  },
  {
   "property": "C130",
   "status": "partial",
   "theorems": [
    "C130_threads_refuted",
    "C130_pad_refuted",
    "C130_set_back_refuted",
    "C130_locked_partial"
   ],
   "note": "False of the code without a lock: from every state and for all messages there is a schedule in which two frames are sent under one nonce, and with standard cryptography the frames give away the exclusive or of the messages; a thread that is held up can set the counter back behind any number of frames (C130_set_back_refuted). Proved with a lock: nonces are unique in every schedule, and the frames are those of the calls made, in order. Encryption reads the nonce in one step and the channel below takes the frames of a call whole."
  },
  {
   "property": "C131",
   "status": "partial",
   "theorems": [
    "C131_inside_refuted",
    "C131_locked_partial",
    "C131_any_stream"
   ],
   "note": "False of the code without a lock: for every message there is another one that contains it such that, when the peer sends only the latter, one of two threads gets the former and the other one ComException. Proved with a lock: in every schedule the messages are handed out in order, each once, and calls fail only after the last one; and for any bytes at all the results are those of calls made one after the other (C131_any_stream). The socket itself does not fail in this model."
  },
  {
   "property": "C132",
   "status": "partial",
   "theorems": [
    "C132_turns",
    "C132_blocks_refuted",
    "C132_pair",
    "C132_sessions",
    "C132_sessions_refuted"
   ],
   "note": "False of the code for SocketChannel (C132_blocks_refuted, C132_sessions_refuted): its read is a coroutine that blocks, so no task of the loop makes a step until a message arrives for it, and connected sessions in one loop stop before anything is received. Proved for AsyncioChannel: the loop is free again at the latest when the task has used up its messages (C132_turns), connected tasks end in every order as with two free peers (C132_pair), and so do the sessions (C132_sessions). Connections do not break in this model."
  },
  {
   "property": "C133",
   "status": "proved",
   "theorems": [
    "C133_client",
    "C133_server",
    "C133_app",
    "C133_query"
   ],
   "note": "For every state of the objects, every peer and every failure of the channel."
  },
  {
   "property": "C134",
   "status": "partial",
   "theorems": [
    "C134_cut_refuted",
    "C134_cut_partial",
    "C134_client_cut_partial"
   ],
   "note": "False of the code: LastFlag is outside the box, so an attacker who clears it in the frames it lets through and sets it in the last of them makes the reader return any non-empty prefix without an exception (C134_cut_refuted, any history of single-message writes and any place). Proved: what a server (or a client) returns is always a prefix of what a client with the reported key wrote in the same session, or a box or signature was forged or SHA-512 collides (C134_cut_partial, C134_client_cut_partial)."
  },
  {
   "property": "C135",
   "status": "proved",
   "theorems": [
    "C135_duplex",
    "C135_writer_runs",
    "C135_reader_runs"
   ],
   "note": "Every access to an attribute is a step of its own. The library call that encrypts reads the nonce once, in one step. Several writers or several readers are another matter (C130, C131)."
  },
  {
   "property": "C136",
   "status": "proved",
   "theorems": [
    "C136_texts",
    "C136_clients",
    "C136_servers",
    "C136_roles"
   ],
   "note": "Over the published algorithms, through any back end. The two texts whose hashes would have to agree are named in the conclusion. The order of the base point is proved prime and exact."
  }
 ]
}