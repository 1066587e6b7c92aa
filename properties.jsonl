{"id": "C01", "title": "M1 wire format and round trip", "statement": "Serialising an M1 built from a time, a 32-byte client key and optionally a 32-byte server key gives exactly the documented layout ('SCv2', type 1, flag bit, little-endian time mod 2^32, keys), and parsing those bytes gives back the same time, key, flag and server key, whatever follows them.", "quantifier": "every time value, every client key, every optional server key, every trailing byte string", "why_tests_cant": "the field space is 2^(32+256+256); tests sample four dumps", "anchors": ["saltchannel/v2/packets.py:M1Packet", "saltchannel/util/packets.py:SmartStructure.from_bytes"]}
{"id": "C02", "title": "Exactly which byte strings M1Packet accepts", "statement": "M1Packet(src) succeeds iff the first five bytes of src, as far as src reaches, are those of 'SCv2\\x01' (so empty and truncated frames are accepted, padded with zeros); otherwise it raises BadPeer and nothing else.", "quantifier": "every byte string", "why_tests_cant": "all byte strings of all lengths", "anchors": ["saltchannel/v2/packets.py:M1Packet.from_bytes,validate", "saltchannel/util/packets.py:SmartStructure.from_bytes,Packet.validate"]}
{"id": "C03", "title": "M2 wire format and round trip", "statement": "bytes(M2Packet) is always 38 bytes with the documented layout, the last-flag is forced whenever NoSuchServer is set, and M2Packet(bytes) recovers time, key and flags.", "quantifier": "every time, server key and flag combination", "why_tests_cant": "infinite field space; the implied LastFlag is a mutation inside serialisation", "anchors": ["saltchannel/v2/packets.py:M2Packet"]}
{"id": "C04", "title": "M3 and M4 wire format and round trip", "statement": "bytes() of M3/M4 is the documented 102-byte layout and parsing recovers time, signing key and signature.", "quantifier": "every time, 32-byte key and 64-byte signature", "why_tests_cant": "field space", "anchors": ["saltchannel/v2/packets.py:M3Packet,M4Packet"]}
{"id": "C05", "title": "Exactly which byte strings M2, M3, M4, EncryptedPacket and AppPacket accept", "statement": "For non-empty src: M2/M3/M4 accept iff the first byte is 2/3/4 (any length, short input zero-padded, surplus ignored); EncryptedPacket accepts iff len>=18 and first byte 6; AppPacket accepts iff len>=6 and first byte 5; every rejection is BadPeer. Empty src is accepted without validation by all five.", "quantifier": "every byte string", "why_tests_cant": "all byte strings of all lengths", "anchors": ["saltchannel/v2/packets.py:M2Packet,M3Packet,M4Packet,EncryptedPacket,AppPacket"]}
{"id": "C06", "title": "EncryptedPacket and AppPacket round trip", "statement": "Wrapping any body/data and parsing the result recovers body, last flag, time and data exactly; bodies keep their exact length.", "quantifier": "every body, every data string, every flag, every time", "why_tests_cant": "unbounded payload sizes", "anchors": ["saltchannel/v2/packets.py:EncryptedPacket,AppPacket"]}
{"id": "C07", "title": "MultiAppPacket round trip", "statement": "For 1..65535 messages of 0..65535 bytes each, parsing the serialised packet gives back exactly the same messages in order and the same time, whatever bytes follow.", "quantifier": "every message list within the limits", "why_tests_cant": "unbounded combinations of message counts and sizes including empty messages and boundary sizes", "anchors": ["saltchannel/v2/packets.py:MultiAppPacket"]}
{"id": "C08", "title": "MultiAppPacket parsing of hostile input", "statement": "On any non-empty byte string MultiAppPacket either raises BadPeer or ValueError, or returns exactly Count>=1 messages; the parser reads only inside the buffer, and the payload is the concatenation of length-prefixed messages where only the last may be cut short.", "quantifier": "every byte string", "why_tests_cant": "all byte strings; a malformed length field is attacker controlled", "anchors": ["saltchannel/v2/packets.py:MultiAppPacket.from_bytes,_MultiAppPacketBodyOpt.from_bytes,validate"]}
{"id": "C09", "title": "Malformed application packets raise BadPeer", "statement": "Every application packet that cannot be parsed is reported as BadPeer (documented contract of the channel).", "quantifier": "every decrypted payload", "why_tests_cant": "needs all byte strings; false for the shipped code: ValueError and AttributeError escape", "anchors": ["saltchannel/v2/app_channel_v2.py:AppChannelV2.read", "saltchannel/v2/packets.py:MultiAppPacket"]}
{"id": "C10", "title": "A truncated MultiAppPacket is not delivered as data", "statement": "A MultiAppPacket whose last message is shorter than its length field is rejected.", "quantifier": "every byte string", "why_tests_cant": "false for the shipped code: Python slicing truncates silently", "anchors": ["saltchannel/v2/packets.py:_MultiAppPacketBodyOpt.from_bytes"]}
{"id": "C11", "title": "Exactly which byte strings A1Packet accepts", "statement": "A1Packet(src) for non-empty src accepts exactly 08 xx 00 00 00 and 08 xx 01 20 00 followed by 32 address bytes; anything else of 5 or more bytes raises BadPeer, anything of 1..4 bytes raises ValueError.", "quantifier": "every byte string", "why_tests_cant": "all byte strings of all lengths", "anchors": ["saltchannel/a1a2/packets.py:A1Packet"]}
{"id": "C12", "title": "Exactly which byte strings A2Packet accepts", "statement": "A2Packet(src) accepts iff type is 9, LastFlag set, Count (signed byte) equals the number of whole 20-byte protocol entries, NoSuchServer implies none, and every protocol string is valid; fewer than 3 bytes raise ValueError, undecodable protocol strings raise UnicodeDecodeError, all other rejections are BadPeer.", "quantifier": "every byte string, every Unicode word-character classification", "why_tests_cant": "all byte strings of all lengths", "anchors": ["saltchannel/a1a2/packets.py:A2Packet,_A2Prot"]}
{"id": "C13", "title": "A2 protocol strings are restricted to the documented alphabet", "statement": "Every protocol string accepted by A2Packet consists of 10 characters from A-Z a-z 0-9 - . / _.", "quantifier": "every byte string", "why_tests_cant": "regex subtlety ($ before newline, Unicode \\w) only shows on particular inputs; false for the shipped code", "anchors": ["saltchannel/a1a2/packets.py:_A2Prot.validate"]}
{"id": "C14", "title": "No frame is accepted as two different packets", "statement": "A non-empty byte string is accepted by at most one of the nine packet classes.", "quantifier": "every non-empty byte string and every pair of packet classes", "why_tests_cant": "all byte strings", "anchors": ["saltchannel/v2/packets.py", "saltchannel/a1a2/packets.py"]}
{"id": "C15", "title": "Key and signature fields cannot be set to a wrong length", "statement": "Assigning a byte string of the wrong length to a fixed-size field raises TypeError and leaves the packet unchanged; a serialised M1/M2/M3/M4 therefore always has its fixed length.", "quantifier": "every packet, field and value", "why_tests_cant": "all lengths", "anchors": ["saltchannel/util/packets.py:Packet.__setattr__"]}
{"id": "C16", "title": "Socket framing delivers every message intact under every fragmentation", "statement": "Messages written with SocketChannel.write_sync are returned by read_sync unchanged, in order and one per call, however the network splits or merges the bytes.", "quantifier": "every list of messages (each < 2^31 bytes), every sequence of recv() chunk sizes", "why_tests_cant": "every fragmentation schedule", "anchors": ["saltchannel/channel.py:SocketChannel.read_sync,write_sync,recvall"]}
{"id": "C17", "title": "Connection loss never yields a partial message", "statement": "If the peer closes after any number of bytes, read_sync returns exactly the messages that arrived completely and then raises ComException.", "quantifier": "every message list, every cut point, every fragmentation", "why_tests_cant": "every crash point", "anchors": ["saltchannel/channel.py:SocketChannel.read_sync,recvall"]}
{"id": "C18", "title": "read_sync on an arbitrary byte stream", "statement": "On any incoming stream read_sync either returns exactly the number of bytes announced by the 4-byte prefix or raises ComException (negative length, end of stream or socket error); it never raises anything else and never consumes more than the frame.", "quantifier": "every stream, every fragmentation, every socket error", "why_tests_cant": "attacker-controlled streams", "anchors": ["saltchannel/channel.py:SocketChannel.read_sync"]}
{"id": "C19", "title": "write_sync is all or nothing before the socket", "statement": "If any message of a batch is 2^31 bytes or longer, write_sync raises ComException and hands no byte to the socket; otherwise it hands the socket exactly one buffer holding all frames in order.", "quantifier": "every batch", "why_tests_cant": "sizes around 2^31 cannot be allocated in tests", "anchors": ["saltchannel/channel.py:SocketChannel.write_sync"]}
{"id": "C20", "title": "Asyncio framing", "statement": "AsyncioChannel/SaltChannelStream{Reader,Writer} use the same framing: every written message list is read back in order under every fragmentation; end of stream inside a frame raises IncompleteReadError and a negative length ValueError.", "quantifier": "every message list, every fragmentation, every cut point", "why_tests_cant": "every schedule", "anchors": ["saltchannel/channel.py:AsyncioChannel", "saltchannel/dev/client_server_a.py:SaltChannelStreamWriter.write_msg,SaltChannelStreamReader.read_msg"]}
{"id": "C21", "title": "Channel read errors are ComExceptions", "statement": "Every communication failure of a shipped channel is reported as ComException.", "quantifier": "every channel, stream and failure", "why_tests_cant": "false for AsyncioChannel: IncompleteReadError/ValueError escape", "anchors": ["saltchannel/channel.py:AsyncioChannel.read"]}
{"id": "C22", "title": "No nonce is ever used twice", "statement": "Over any history of reads, writes, I/O failures and aborted calls, each encryption on one EncryptedChannelV2 uses a nonce never used before on it, client nonces are odd and server nonces even, so the two directions never share one; after the counter is exhausted encryption fails instead of wrapping.", "quantifier": "every operation history, both roles, every failure point", "why_tests_cant": "unbounded histories; reuse would be catastrophic but invisible to a test", "anchors": ["saltchannel/v2/encrypted_channel_v2.py:Nonce,EncryptedChannelV2"]}
{"id": "C23", "title": "Encrypted channel delivers in order", "statement": "What one end writes, the other end reads: same plaintexts, same order, and the last flag is reported exactly for the final message of a write with is_last.", "quantifier": "every sequence of write batches, every key, every AEAD satisfying the NaCl laws", "why_tests_cant": "unbounded histories", "anchors": ["saltchannel/v2/encrypted_channel_v2.py:EncryptedChannelV2.read,write"]}
{"id": "C24", "title": "Replay, reordering, reflection, deletion and forgery are detected", "statement": "Whatever frames an attacker delivers, the successfully read plaintexts are a prefix of what the peer wrote, in order and without repetition, unless the attacker produced a ciphertext that opens under a nonce for which the peer never produced it (a forgery, exhibited).", "quantifier": "every adversarial frame sequence, every write history", "why_tests_cant": "every attacker schedule", "anchors": ["saltchannel/v2/encrypted_channel_v2.py:EncryptedChannelV2.read,decrypt"]}
{"id": "C25", "title": "A rejected frame does not desynchronise the channel", "statement": "A frame that does not authenticate raises an exception, leaves the read position unchanged, and the genuine frames still decrypt, wherever and however often such frames are injected.", "quantifier": "every interleaving of genuine and bad frames", "why_tests_cant": "every interleaving", "anchors": ["saltchannel/v2/encrypted_channel_v2.py:EncryptedChannelV2.read"]}
{"id": "C26", "title": "Errors of the encrypted channel", "statement": "Reading any non-empty frame either succeeds or raises BadPeer; the empty frame raises AttributeError.", "quantifier": "every frame, key and channel state", "why_tests_cant": "all byte strings", "anchors": ["saltchannel/v2/encrypted_channel_v2.py:EncryptedChannelV2.unwrap,decrypt"]}
{"id": "C27", "title": "The last flag is authentic", "statement": "An attacker without the key cannot change the value of `last` reported for a successfully read message.", "quantifier": "every frame", "why_tests_cant": "false: the header is outside the MAC", "anchors": ["saltchannel/v2/encrypted_channel_v2.py:EncryptedChannelV2.unwrap"]}
{"id": "C28", "title": "Application messages are delivered exactly once and in order", "statement": "Any sequence of AppChannelV2.write calls (each with 1..65535 messages, or any number when one exceeds 65535 bytes) is read by the peer as the concatenation of all messages, in order, one per read.", "quantifier": "every sequence of batches, every clock, every AEAD", "why_tests_cant": "unbounded histories; mixing of single and multi packets", "anchors": ["saltchannel/v2/app_channel_v2.py:AppChannelV2.read,write"]}
{"id": "C29", "title": "Batches above 65535 messages are delivered", "statement": "A write of more than 65535 small messages is delivered completely.", "quantifier": "every batch", "why_tests_cant": "false: Count wraps modulo 2^16; tests never write 65536 messages", "anchors": ["saltchannel/v2/app_channel_v2.py:AppChannelV2.write", "saltchannel/v2/packets.py:MultiAppPacket.should_use"]}
{"id": "C30", "title": "Buffered M4 goes first and exactly once", "statement": "With a buffered M4, the first write sends M4 ahead of the application data in the same underlying write, stamped with the current time, and no later write sends it again.", "quantifier": "every sequence of writes", "why_tests_cant": "history property", "anchors": ["saltchannel/v2/app_channel_v2.py:AppChannelV2.write"]}
{"id": "C31", "title": "All packets of one write carry one timestamp", "statement": "Every packet produced by one AppChannelV2.write carries the time keeper's single reading, modulo 2^32, and is_last marks only the last frame of the batch.", "quantifier": "every batch and clock", "why_tests_cant": "all batches", "anchors": ["saltchannel/v2/app_channel_v2.py:AppChannelV2.write"]}
{"id": "C32", "title": "Honest handshake completes under every schedule", "statement": "With valid key pairs and an honest FIFO transport both handshakes complete, with and without buffering on either side, in every scheduling of the two peers; both hold the same session key, each holds the other's true signing key, and the nonce counters agree.", "quantifier": "every key pair, buffering flag, clock with first time 0 or 1, every schedule, every crypto library satisfying the NaCl laws", "why_tests_cant": "every interleaving", "anchors": ["saltchannel/v2/salt_client_session.py:SaltClientSession.handshake", "saltchannel/v2/salt_server_session.py:SaltServerSession.handshake"]}
{"id": "C33", "title": "Client completes only with a verified server signature", "statement": "If the client handshake returns normally, the signature in M3 verified, under the key it reports as the server's, over 'SC-SIG01', the hash of the exact M1 bytes it sent and the hash of the exact M2 bytes it received.", "quantifier": "every adversarial network behaviour, every failure and crash point", "why_tests_cant": "every attacker", "anchors": ["saltchannel/v2/salt_client_session.py:SaltClientSession.handshake,validate_signature1"]}
{"id": "C34", "title": "Server completes only with a verified client signature", "statement": "If the server handshake returns normally with an application channel (M1 path), the M4 signature verified under client_sig_key over 'SC-SIG02', the hash of the exact M1 bytes received and of the exact M2 bytes sent.", "quantifier": "every adversarial network behaviour, every failure and crash point", "why_tests_cant": "every attacker", "anchors": ["saltchannel/v2/salt_server_session.py:SaltServerSession.handshake,validate_signature2"]}
{"id": "C35", "title": "Agreement on the transcript", "statement": "If a client and a server both complete, each accepting the other's signature made in these runs, then they saw the same M1 and M2 bytes (hence the same session key), or a SHA-512 collision or a signature forgery is exhibited.", "quantifier": "every pair of runs under every attacker", "why_tests_cant": "every attacker", "anchors": ["saltchannel/v2/salt_client_session.py", "saltchannel/v2/salt_server_session.py"]}
{"id": "C36", "title": "The client never reveals its identity or data to an unverified server", "statement": "In every run, before the server's signature has been verified the client has written nothing but its M1; its signing key never appears in a cleartext write.", "quantifier": "every adversarial network behaviour and crash point", "why_tests_cant": "every attacker and crash point", "anchors": ["saltchannel/v2/salt_client_session.py:SaltClientSession.handshake"]}
{"id": "C37", "title": "A client that wants a particular server only accepts that server", "statement": "Setting wanted_server_sig_key makes the handshake fail unless the server proves that key.", "quantifier": "every server key", "why_tests_cant": "false: the attribute is never read", "anchors": ["saltchannel/v2/salt_client_session.py:SaltClientSession.wanted_server_sig_key"]}
{"id": "C38", "title": "Wrong-server requests are refused by the server", "statement": "If M1 names another server key, the server answers with exactly one M2 carrying NoSuchServer and the last flag, raises NoSuchServerException, and never sends M3 or accepts data; the client receiving that M2 raises NoSuchServerException.", "quantifier": "every M1 and server key, every clock with first time 0 or 1", "why_tests_cant": "all inputs", "anchors": ["saltchannel/v2/salt_server_session.py:SaltServerSession.do_m1", "saltchannel/v2/salt_client_session.py:SaltClientSession.do_m2"]}
{"id": "C39", "title": "A1 naming another server is answered with NoSuchServer", "statement": "An A1 request of type PUBKEY with a foreign key is answered with A2 NoSuchServer.", "quantifier": "every A1 address", "why_tests_cant": "false: a bytes/int comparison makes the branch dead; the answer never depends on the address", "anchors": ["saltchannel/v2/salt_server_session.py:SaltServerSession.do_a2", "saltchannel/util/packets.py:Packet.__getattr__"]}
{"id": "C40", "title": "A1/A2 exchange", "statement": "A server receiving any valid A1 writes exactly one A2 (injected or default) with the last flag, finishes with is_done and no application channel, and A1ClientSession decodes exactly the protocols offered.", "quantifier": "every valid A1, every injected valid A2", "why_tests_cant": "all inputs", "anchors": ["saltchannel/v2/salt_server_session.py:SaltServerSession.do_a2", "saltchannel/a1a2/a1_client_session.py:A1ClientSession"]}
{"id": "C41", "title": "Bad first time is reported as BadPeer", "statement": "A first message whose time is not 0 or 1 is rejected with BadPeer.", "quantifier": "every time value", "why_tests_cant": "false: the error message construction raises TypeError", "anchors": ["saltchannel/util/time.py:NullTimeChecker.report_first_time"]}
{"id": "C42", "title": "The only exceptions a malformed first frame can cause in the server", "statement": "Whatever the first frame is, the server either goes on to M2, or answers with one A2 or one NoSuchServer M2, or raises; the exception is always one of BadPeer, ValueError, TypeError or NoSuchServerException, or the crypto library's own error for the key in the frame, or the channel's own write error.", "quantifier": "every first frame", "why_tests_cant": "all byte strings", "anchors": ["saltchannel/v2/salt_server_session.py:SaltServerSession.do_m1,do_a2"]}
{"id": "C43", "title": "An empty first frame is not a handshake", "statement": "A zero-length frame is rejected by both peers.", "quantifier": "every session", "why_tests_cant": "false: an empty chunk skips parsing and validation and is treated as an all-zero M1/M2", "anchors": ["saltchannel/v2/packets.py:M1Packet.__init__", "saltchannel/v2/salt_server_session.py:SaltServerSession.do_m1"]}
{"id": "C44", "title": "Library selection", "statement": "SaltLib.getLib returns the requested library, and for BEST the first available one.", "quantifier": "every availability pattern and requested type", "why_tests_cant": "false: returns None for every explicit type and gives up after the first candidate", "anchors": ["saltchannel/saltlib/saltlib.py:SaltLib.getLib"]}
{"id": "C45", "title": "Singletons ignore later constructor arguments", "statement": "All constructions of a singleton class, in any order and number, return the first instance, whatever the later arguments; different classes never share an instance.", "quantifier": "every sequence of constructions", "why_tests_cant": "history property", "anchors": ["saltchannel/util/__init__.py:Singleton,SingletonABCMeta"]}
{"id": "C46", "title": "MitmChannel is transparent and counts bytes", "statement": "For any sequence of reads and writes, MitmChannel returns exactly what the wrapped channel returns, forwards exactly what it was given, and its counters equal the sums of payload lengths transferred.", "quantifier": "every operation sequence", "why_tests_cant": "history property", "anchors": ["saltchannel/dev/mitm_channel.py:MitmChannel"]}
{"id": "C47", "title": "Tunnel channels carry messages", "statement": "A message written to one end of a Tunnel can be read at the other end.", "quantifier": "every message", "why_tests_cant": "false: bytes + tuple raises TypeError on every call", "anchors": ["saltchannel/dev/tunnel.py:Tunnel"]}
{"id": "C48", "title": "Time keeper used in the examples counts 1,2,3", "statement": "After get_first_time, OneTwoThreeTimeKeeper returns 1 and then 2,3,4,... on successive calls.", "quantifier": "every call sequence", "why_tests_cant": "history property", "anchors": ["saltchannel/dev/example_session3.py:OneTwoThreeTimeKeeper"]}
{"id": "C49", "title": "Reusing a packet object for parsing", "statement": "from_bytes on an existing packet gives the same result as on a fresh one.", "quantifier": "every packet state and byte string", "why_tests_cant": "false: short input leaves stale fields", "anchors": ["saltchannel/util/packets.py:SmartStructure.from_bytes"]}
{"id": "C50", "title": "A server key set on M1 is sent", "statement": "After setting the included-flag and assigning ServerSigKey on an M1Packet, the serialised packet carries that key.", "quantifier": "every key, every order of calls", "why_tests_cant": "false without create_opt_fields(): the key lands in a Python attribute and is silently not serialised although it reads back", "anchors": ["saltchannel/v2/packets.py:M1Packet.ServerSigKey,create_opt_fields"]}
{"id": "C51", "title": "last tells that the final message was read", "statement": "After AppChannelV2.read, last is True only when the message returned is the final one of the peer.", "quantifier": "every batch of two or more messages", "why_tests_cant": "false: a final batch travels in one packet, so last is True from its first message on", "anchors": ["saltchannel/v2/app_channel_v2.py:AppChannelV2.last,read"]}
{"id": "C52", "title": "A failed first write can be retried", "statement": "When the client's first AppChannelV2.write fails, a later write still completes the handshake (sends M4).", "quantifier": "every failure, every later history", "why_tests_cant": "false: the buffered M4 is cleared before the underlying write; no later history sends it", "anchors": ["saltchannel/v2/app_channel_v2.py:AppChannelV2.write"]}
{"id": "C53", "title": "A failed handshake leaves no peer identity", "statement": "A server session whose handshake raised does not report a client key.", "quantifier": "every client that can do the key exchange", "why_tests_cant": "false: client_sig_key is assigned before the signature is checked and survives BadPeer, for every claimed key", "anchors": ["saltchannel/v2/salt_server_session.py:SaltServerSession.do_m4"]}
{"id": "C54", "title": "Keys can be rebuilt from their secret part", "statement": "create_sig_keys_from_sec uses the first 32 bytes of its argument: a secret key gives back the same pair, shorter arguments are a ValueError. create_enc_keys_from_sec keeps the given secret key and refuses every length but 32.", "quantifier": "every byte string, every back end", "why_tests_cant": "all lengths", "anchors": ["saltchannel/saltlib/saltlib.py:SaltLib.create_sig_keys_from_sec,create_enc_keys_from_sec", "saltchannel/saltlib/saltlib_native.py:SaltLibNative.crypto_sign_keypair_not_random"]}
{"id": "C55", "title": "An explicitly chosen back end works", "statement": "SaltLib(LIB_TYPE_x) gives an object whose operations work.", "quantifier": "every explicit type, every later use in the process", "why_tests_cant": "false: api is None, every operation raises AttributeError, and as SaltLib is a singleton every later SaltLib() is that object", "anchors": ["saltchannel/saltlib/saltlib.py:SaltLib.__init__", "saltchannel/util/__init__.py:Singleton"]}
{"id": "C56", "title": "Buffered log events are not lost", "statement": "Events seen by a MitmChannel while log_buffering is set are delivered by flush_log_buffer.", "quantifier": "every program", "why_tests_cant": "false: they are dropped", "anchors": ["saltchannel/dev/mitm_channel.py:MitmChannel._log_event,flush_log_buffer"]}
{"id": "C57", "title": "Sessions of one process have independent clocks", "statement": "The times a session sends do not depend on other sessions.", "quantifier": "every interleaving", "why_tests_cant": "false: TimeKeeper classes are singletons, and example_session3 runs both peers in one process", "anchors": ["saltchannel/util/time.py:TimeKeeper", "saltchannel/dev/example_session3.py:OneTwoThreeTimeKeeper"]}
{"id": "C58", "title": "Size of a handshake", "statement": "An honest handshake transfers 42+120 bytes from client to server and 38+120 bytes back, as counted by MitmChannels on both sides.", "quantifier": "every schedule, every buffering of M2, every clock", "why_tests_cant": "schedules", "anchors": ["saltchannel/v2/salt_client_session.py:SaltClientSession.handshake", "saltchannel/v2/salt_server_session.py:SaltServerSession.handshake", "saltchannel/dev/mitm_channel.py:MitmChannel"]}
{"id": "C59", "title": "The native wrapper keeps NaCl's contract", "statement": "Through the native back end, encryption adds exactly 16 bytes, decryption returns exactly the message encrypted, sign_open returns exactly the message signed, key agreement agrees and hashes have 64 bytes, given that the C functions follow the documented zero-padding interface.", "quantifier": "every message, nonce and key, every conforming C library", "why_tests_cant": "all inputs; padding and buffer lengths are invisible at the protocol level", "anchors": ["saltchannel/saltlib/saltlib_native.py:SaltLibNative"]}
{"id": "C60", "title": "Back end failures are uniform", "statement": "Whatever the C library or the binding does, a failed decryption is BadEncryptedDataException and a failed verification is BadSignatureException through each of the three back ends, and no data is returned when the C function reports failure.", "quantifier": "every back end, every input, every behaviour of the C library", "why_tests_cant": "failures cannot be provoked at will", "anchors": ["saltchannel/saltlib/saltlib_native.py:SaltLibNative", "saltchannel/saltlib/saltlib_pynacl.py:SaltLibPyNaCl", "saltchannel/saltlib/saltlib_tweetnaclext.py:SaltLibTweetNaClExt"]}
{"id": "C61", "title": "Every back end class can be used", "statement": "Each back end class of the package can be instantiated.", "quantifier": "every history of constructions", "why_tests_cant": "false: SaltLibPure leaves an abstract method undefined, so every SaltLibPure() raises TypeError", "anchors": ["saltchannel/saltlib/saltlib_pure.py:SaltLibPure", "saltchannel/saltlib/saltlib_base.py:SaltLibBase"]}
{"id": "C62", "title": "Runs over byte channels are executions", "statement": "A handshake, session or any other program run over a SocketChannel or AsyncioChannel always finishes; the messages it receives are exactly the framed messages at the head of the incoming byte stream, in order, up to the first failed read; the bytes it emits are exactly its messages, framed; without network errors a read fails only if no complete message is left.", "quantifier": "all programs over a channel, all incoming byte streams, all segmentations, all send/receive failures", "why_tests_cant": "streams, segmentations and failures are unbounded", "anchors": ["saltchannel/channel.py:SocketChannel", "saltchannel/channel.py:AsyncioChannel", "saltchannel/dev/client_server_a.py:SaltChannelStreamReader"]}
{"id": "C63", "title": "Sessions complete over any byte streams", "statement": "Two peers joined by two byte streams, each peer over a SocketChannel or an AsyncioChannel, end with the same results as if whole messages were exchanged, however the streams are cut and the peers scheduled; in particular a client that connects, sends a batch and reads the answer and a server that accepts, reads and answers both finish with the other's batch and leave no byte unread.", "quantifier": "all segmentations, schedules and reader pauses, all batches, keys, buffering options and mixes of channel types", "why_tests_cant": "unboundedly many interleavings of chunks and calls", "anchors": ["saltchannel/channel.py:SocketChannel", "saltchannel/channel.py:AsyncioChannel", "saltchannel/v2/salt_client_session.py:SaltClientSession", "saltchannel/v2/salt_server_session.py:SaltServerSession", "saltchannel/v2/app_channel_v2.py:AppChannelV2"]}
{"id": "C64", "title": "Peer identity over TCP", "statement": "If a session over a SocketChannel completes against an attacker who chooses every incoming byte and its segmentation, the reported peer key verified a signature on the hashes of the exact M1 and M2 bytes of this connection, the bytes consumed by the server are exactly two frames and the bytes it sent exactly M2 and M3.", "quantifier": "all incoming byte streams, segmentations and failures", "why_tests_cant": "the attacker's byte strings cannot be enumerated", "anchors": ["saltchannel/v2/salt_client_session.py:SaltClientSession", "saltchannel/v2/salt_server_session.py:SaltServerSession", "saltchannel/channel.py:SocketChannel"]}
{"id": "C65", "title": "A session is a perfect message pipe", "statement": "Two programs that talk through the application channels of a client and a server session end as if they were joined by two perfect FIFO queues of messages: each finishes with the same result, or waits for a message where it would have waited; nothing is left in flight if no message is. For example every echo client gets back exactly the messages it sent.", "quantifier": "all programs, batches and message sizes, all schedules, buffering options, channel types and segmentations", "why_tests_cant": "arbitrary programs, message sequences and interleavings", "anchors": ["saltchannel/v2/app_channel_v2.py:AppChannelV2", "saltchannel/v2/salt_client_session.py:SaltClientSession", "saltchannel/v2/salt_server_session.py:SaltServerSession", "saltchannel/dev/simple_echo_session.py:SimpleEchoSession"]}
{"id": "C66", "title": "M4 buffering changes no outcome", "statement": "Setting buffer_M4 on the client only delays M4; every pair of programs that completes without it completes with it.", "quantifier": "all programs, schedules, keys", "why_tests_cant": "false: if the client's program reads first both peers wait for ever, for every choice of programs; tests always write first", "anchors": ["saltchannel/v2/salt_client_session.py:SaltClientSession", "saltchannel/v2/app_channel_v2.py:AppChannelV2"]}
{"id": "C67", "title": "SHA-512 of the pure Python back end", "statement": "SaltLibPure's crypto_hash returns the SHA-512 digest of FIPS 180-4 for every message.", "quantifier": "all byte strings shorter than 2^64", "why_tests_cant": "typed integers with their own promotion rules; wrong carries or paddings may show only for rare lengths and values", "anchors": ["saltchannel/saltlib/saltlib_pure.py:SaltLibPure.crypto_hash", "saltchannel/saltlib/pure_pynacl/tweetnacl.py:crypto_hash_sha512_tweet", "saltchannel/saltlib/pure_pynacl/__init__.py:Int"]}
{"id": "C68", "title": "Salsa20 and HSalsa20 of the pure Python port", "statement": "crypto_core_salsa20_tweet and crypto_core_hsalsa20_tweet compute the functions of Bernstein's specifications.", "quantifier": "all 32-byte keys and 16-byte inputs", "why_tests_cant": "2^384 inputs; words silently grow beyond 32 bits in the port", "anchors": ["saltchannel/saltlib/pure_pynacl/tweetnacl.py:core"]}
{"id": "C69", "title": "XSalsa20 stream of the pure Python port", "statement": "crypto_stream_xsalsa20_tweet_xor encrypts every message with the XSalsa20 key stream.", "quantifier": "all messages, keys and nonces", "why_tests_cant": "false from byte 16449 on: the block counter carries twice; tests with short messages pass", "anchors": ["saltchannel/saltlib/pure_pynacl/tweetnacl.py:crypto_stream_xsalsa20_tweet_xor"]}
{"id": "C70", "title": "Poly1305 of the pure Python port", "statement": "crypto_onetimeauth_poly1305_tweet computes the RFC 8439 tag of every message under every 32-byte key, and crypto_onetimeauth_poly1305_tweet_verify returns 0 exactly for that tag.", "quantifier": "all messages of every length, all keys, all candidate tags", "why_tests_cant": "carries and the final reduction modulo 2^130-5 go wrong only for rare keys and messages", "anchors": ["saltchannel/saltlib/pure_pynacl/tweetnacl.py:234-314"]}
{"id": "C71", "title": "Sealing a box with the pure Python port", "statement": "crypto_box_afternm returns NaCl's secretbox of the message: the Poly1305 tag followed by the XSalsa20 ciphertext.", "quantifier": "all messages, nonces and keys", "why_tests_cant": "false from 16417 message bytes on; tests with short messages pass", "anchors": ["saltchannel/saltlib/saltlib_pure.py:69-73", "saltchannel/saltlib/pure_pynacl/tweetnacl.py:317-325"]}
{"id": "C72", "title": "Which boxes the pure Python port accepts", "statement": "crypto_box_open_afternm returns normally exactly for those inputs whose first 16 bytes are the Poly1305 tag of the rest under the first 32 bytes of the key stream; every other input, also one of fewer than 16 bytes, raises.", "quantifier": "all inputs of every length, all nonces and keys", "why_tests_cant": "a test tries a few forgeries; the claim is about all of them", "anchors": ["saltchannel/saltlib/saltlib_pure.py:77-86", "saltchannel/saltlib/pure_pynacl/tweetnacl.py:310-336", "saltchannel/saltlib/pure_pynacl/tweetnacl.py:116-125"]}
{"id": "C73", "title": "Opening what was sealed with the pure Python port", "statement": "crypto_box_open_afternm(crypto_box_afternm(m, n, k), n, k) returns m.", "quantifier": "all messages, nonces and keys", "why_tests_cant": "false for every message but the empty one: opening always returns the empty message", "anchors": ["saltchannel/saltlib/saltlib_pure.py:69-86", "saltchannel/saltlib/pure_pynacl/tweetnacl.py:328-336"]}
{"id": "C74", "title": "How the pure Python port reports a forged box", "statement": "crypto_box_open_afternm raises BadEncryptedDataException for a box with a wrong tag.", "quantifier": "all boxes, nonces and keys", "why_tests_cant": "false: the module does not import the exception, so NameError reaches the caller, for every forged box", "anchors": ["saltchannel/saltlib/saltlib_pure.py:77-86"]}
{"id": "C75", "title": "X25519 of the pure Python port", "statement": "crypto_scalarmult_curve25519_tweet computes X25519 of RFC 7748 for every 32-byte scalar and every 32-byte coordinate, including coordinates with the top bit set and coordinates that are not reduced; longer arguments count by their first 32 bytes and shorter ones raise IndexError.", "quantifier": "all scalars and coordinates", "why_tests_cant": "a lost carry in the 16-limb arithmetic shows for about one input in 2^60", "anchors": ["saltchannel/saltlib/pure_pynacl/tweetnacl.py:466-524"]}
{"id": "C76", "title": "Encryption key pairs of the pure Python port", "statement": "crypto_box_keypair_not_random(sk) returns the X25519 public key of sk and sk itself for every 32-byte sk and raises ValueError for every other length.", "quantifier": "all byte strings", "why_tests_cant": "all inputs", "anchors": ["saltchannel/saltlib/saltlib_pure.py:53-58", "saltchannel/saltlib/pure_pynacl/tweetnacl.py:527-529"]}
{"id": "C77", "title": "The shared key of the pure Python port", "statement": "crypto_box_beforenm(pk, sk) returns HSalsa20 of the X25519 secret with a zero nonce; keys shorter than 32 bytes raise IndexError.", "quantifier": "all keys", "why_tests_cant": "all inputs", "anchors": ["saltchannel/saltlib/saltlib_pure.py:62-65", "saltchannel/saltlib/pure_pynacl/tweetnacl.py:538-542"]}
{"id": "C78", "title": "Shared keys depend on the secret key", "statement": "crypto_box_beforenm(pk, sk) for a given pk returns different keys for different secret keys, or refuses pk.", "quantifier": "all public keys", "why_tests_cant": "false: the zero public key, and it is accepted, yields one and the same key for all secret keys", "anchors": ["saltchannel/saltlib/saltlib_pure.py:62-65", "saltchannel/saltlib/pure_pynacl/tweetnacl.py:466-542"]}
{"id": "C79", "title": "Both sides of a box compute the same key", "statement": "For two key pairs made by crypto_box_keypair_not_random, crypto_box_beforenm of the other side's public key and the own secret key gives both sides the same 32-byte key.", "quantifier": "all pairs of secret keys", "why_tests_cant": "the secret keys are 2^512 pairs; a test sees a few, and special points (u = 0, the point at infinity) never occur by chance", "anchors": ["saltchannel/saltlib/saltlib_pure.py:53-65", "saltchannel/saltlib/pure_pynacl/tweetnacl.py:466-542"]}
{"id": "C80", "title": "Signing key pairs of the pure Python port", "statement": "crypto_sign_keypair_not_random(seed) returns the Ed25519 public key of RFC 8032 and the seed followed by it, for every 32-byte seed, and raises ValueError for every other length.", "quantifier": "all byte strings", "why_tests_cant": "a lost carry in the point arithmetic or the reduction shows for a negligible share of the seeds", "anchors": ["saltchannel/saltlib/saltlib_pure.py:19-32", "saltchannel/saltlib/pure_pynacl/tweetnacl.py:705-777"]}
{"id": "C81", "title": "Signatures of the pure Python port", "statement": "crypto_sign(m, sk) returns the Ed25519 signature of RFC 8032 (the seed being the first half of sk, the public key the second) followed by m; a secret key shorter than 64 bytes raises IndexError.", "quantifier": "all messages under 2^64 - 64 bytes, all secret keys", "why_tests_cant": "the reduction modulo the group order goes wrong only for rare hashes", "anchors": ["saltchannel/saltlib/saltlib_pure.py:36-40", "saltchannel/saltlib/pure_pynacl/tweetnacl.py:803-874"]}
{"id": "C82", "title": "What was signed opens to what was signed", "statement": "For a key pair made by crypto_sign_keypair_not_random, crypto_sign adds 64 bytes, which are a valid signature of RFC 8032, and crypto_sign_open with the public key returns the message.", "quantifier": "all seeds, all messages under 2^64 - 64 bytes", "why_tests_cant": "all seeds and messages", "anchors": ["saltchannel/saltlib/saltlib_pure.py:19-50", "saltchannel/saltlib/pure_pynacl/tweetnacl.py:705-954"]}
{"id": "C83", "title": "Which signed messages the pure Python port opens", "statement": "crypto_sign_open(sm, pk) returns m exactly if sm is a 64-byte signature followed by m with [S]B = R + [k]A, R being the canonical encoding of a point and A the point of pk (decoded without range checks); every other input raises NameError, also inputs shorter than 64 bytes.", "quantifier": "all inputs under 2^64 bytes, all keys of at least 32 bytes", "why_tests_cant": "acceptance of any one forged input among 2^512 per message cannot be excluded by trying", "anchors": ["saltchannel/saltlib/saltlib_pure.py:44-50", "saltchannel/saltlib/pure_pynacl/tweetnacl.py:877-954"]}
{"id": "C84", "title": "Only RFC 8032 signatures are accepted", "statement": "crypto_sign_open accepts a message exactly if its signature is valid by RFC 8032.", "quantifier": "all keys, signatures and messages", "why_tests_cant": "false: every valid signature is accepted, but so is every signature with S replaced by S + L, and so are keys that are no encoding of a point", "anchors": ["saltchannel/saltlib/saltlib_pure.py:44-50", "saltchannel/saltlib/pure_pynacl/tweetnacl.py:877-954"]}
{"id": "C85", "title": "A signature is good for one message", "statement": "No signature and key are accepted for every message.", "quantifier": "all keys and signatures", "why_tests_cant": "false: under the key 01 00..00, which is accepted, the signature 01 00..00 is good for all messages", "anchors": ["saltchannel/saltlib/saltlib_pure.py:44-50", "saltchannel/saltlib/pure_pynacl/tweetnacl.py:877-954"]}
{"id": "C86", "title": "How the pure Python port reports a bad signature", "statement": "crypto_sign_open raises BadSignatureException for a bad signature.", "quantifier": "all signed messages and keys", "why_tests_cant": "false: the module does not import the exception, so NameError reaches the caller, for every rejected input (C83)", "anchors": ["saltchannel/saltlib/saltlib_pure.py:44-50"]}
{"id": "C87", "title": "The assumptions about crypto hold of the published algorithms", "statement": "If the C libraries compute SHA-512 (FIPS 180-4), Ed25519 (RFC 8032), X25519 (RFC 7748) and XSalsa20-Poly1305, then through each of the three back ends: what is signed opens, key agreement agrees, what is encrypted decrypts to itself and only its own ciphertext does, failures raise the library's exceptions, and key generation yields matching pairs.", "quantifier": "all messages, keys, nonces and back ends", "why_tests_cant": "the laws of the algorithms rest on the group law of the curve and the order of the base point; tests sample a few keys", "anchors": ["saltchannel/saltlib/saltlib_native.py:SaltLibNative", "saltchannel/saltlib/saltlib_pynacl.py:SaltLibPyNaCl", "saltchannel/saltlib/saltlib_tweetnaclext.py:SaltLibTweetNaClExt", "saltchannel/saltlib/saltlib.py:SaltLib"]}
{"id": "C88", "title": "Sessions over the published algorithms", "statement": "With the published algorithms behind the back end, keys made by SaltLib and the default clocks, two programs talking through a client and a server session over sockets or asyncio streams end as if joined by two perfect FIFO queues; an echo client gets back exactly what it sent.  Nothing about cryptography is assumed.", "quantifier": "all secret keys, programs, messages, segmentations, schedules, buffering options and back ends", "why_tests_cant": "arbitrary programs and interleavings, 2^1024 key combinations", "anchors": ["saltchannel/v2/salt_client_session.py:SaltClientSession", "saltchannel/v2/salt_server_session.py:SaltServerSession", "saltchannel/v2/app_channel_v2.py:AppChannelV2", "saltchannel/channel.py:SocketChannel", "saltchannel/saltlib/saltlib.py:SaltLib"]}
{"id": "C89", "title": "A reader and many writers can share a channel", "statement": "If any number of asyncio tasks write to one application channel and at most one reads from it, then under every schedule the calls behave as if made one after the other: every batch is sent whole, every task's batches in its own order, no nonce or message is lost, and a peer (itself one reader among many writers) gets exactly the messages in the order in which the writes took effect.", "quantifier": "all numbers of tasks, programs, schedules, batches, failures and cancellations", "why_tests_cant": "interleavings of suspended calls are unbounded and timing dependent", "anchors": ["saltchannel/v2/app_channel_v2.py:25-64", "saltchannel/v2/encrypted_channel_v2.py:57-74", "saltchannel/channel.py:46-52"]}
{"id": "C90", "title": "Several tasks can read from one channel", "statement": "Any number of asyncio tasks may read from one application channel: each message reaches exactly one of them, and messages are handed out in the order sent.", "quantifier": "all numbers of tasks, schedules and batches", "why_tests_cant": "false as to the order: a task that was waiting while another took a batch of several messages gets the next frame before the rest of the batch; needs a particular interleaving", "anchors": ["saltchannel/v2/app_channel_v2.py:25-39", "saltchannel/v2/encrypted_channel_v2.py:57-66"]}
{"id": "C91", "title": "A cancelled read loses nothing", "statement": "When a read on an AsyncioChannel is cancelled (a timeout), the next read returns the message the cancelled one would have returned.", "quantifier": "all message sequences, segmentations and moments of cancellation", "why_tests_cant": "false when the length prefix has arrived and the message has not: the prefix is lost and the contents of the message are taken for frames; depends on how TCP cuts the stream", "anchors": ["saltchannel/channel.py:46-47", "saltchannel/dev/client_server_a.py:16-19"]}
{"id": "C92", "title": "A write that raised can be repeated", "statement": "If a write on an application channel raises or is cancelled, its messages were not delivered, so that repeating it delivers them once.", "quantifier": "all batches, failures and histories", "why_tests_cant": "false: the frames may already be with the transport; depends on when the failure happens", "anchors": ["saltchannel/v2/app_channel_v2.py:41-64", "saltchannel/channel.py:49-52"]}
{"id": "C93", "title": "Every coroutine of the API has a synchronous twin", "statement": "For every coroutine method m of a channel or session, m_sync does what awaiting m does (same effects, same result), also in subclasses that override m; called from a running event loop it raises RuntimeError and does nothing.", "quantifier": "all class hierarchies, arguments, states; all channel stacks", "why_tests_cant": "false for EncryptedChannelV2 and the channels of a Tunnel: their write_sync sends nothing and reports success, their read_sync returns None; a synchronous A1 query over them returns an A2 packet nobody sent. True for every class made by Syncizer and for stacks of the other channels", "anchors": ["saltchannel/util/__init__.py:37-62", "saltchannel/channel.py", "saltchannel/v2/encrypted_channel_v2.py", "saltchannel/dev/mitm_channel.py", "saltchannel/a1a2/a1_client_session.py", "README.md"]}
{"id": "C94", "title": "Objects can be made in any thread", "statement": "Every channel and session can be constructed in any thread; without a loop argument all objects of a thread get one and the same event loop, and the channels a session creates get the loop it runs in.", "quantifier": "all threads and sequences of constructions", "why_tests_cant": "false: in a thread other than the main one SaltClientSession and A1ClientSession raise RuntimeError unless an object that brings a loop was made before; depends on the order of constructions", "anchors": ["saltchannel/util/__init__.py:12-18", "saltchannel/v2/salt_client_session.py:18", "saltchannel/v2/salt_server_session.py:21", "saltchannel/a1a2/a1_client_session.py:8", "saltchannel/channel.py", "saltchannel/dev/mitm_channel.py", "saltchannel/dev/client_server.py"]}
{"id": "C95", "title": "Frames show lengths and nothing else", "statement": "The number, sizes and last flags of the frames written by an application channel are determined by how the messages were grouped into writes, their lengths and last flags; two channels with different keys, clocks and contents but equal lengths write frames of equal shape. A single message costs 24 bytes in its frame, a batch packed into one frame 26 bytes and 2 per message.", "quantifier": "all messages, keys, nonces, clocks and histories", "why_tests_cant": "all contents and histories", "anchors": ["saltchannel/v2/app_channel_v2.py:41-64", "saltchannel/v2/encrypted_channel_v2.py:68-90"]}
{"id": "C96", "title": "What a session delivers was written by the authenticated peer", "statement": "Whatever the network does (drop, replay, reorder, reflect, inject, splice frames of other connections, in the handshake or after it): when a handshake has completed and reports the peer's key pk, the messages then read from the channel are an initial part, in order and without repetition, of the messages that the holder of pk wrote in one connection, the one whose M1 and M2 both sides saw - unless a SHA-512 collision, a forged signature or a forged box is exhibited.", "quantifier": "all runs of a session and its channel, all other connections of the peer, all behaviours of the network, both roles, M4 buffered or not", "why_tests_cant": "every attacker and every interleaving of any number of connections", "anchors": ["saltchannel/v2/salt_client_session.py:SaltClientSession", "saltchannel/v2/salt_server_session.py:SaltServerSession", "saltchannel/v2/encrypted_channel_v2.py", "saltchannel/v2/app_channel_v2.py"]}
{"id": "C97", "title": "A bad peer is reported as ComException", "statement": "Whatever the peer sends during a handshake, the session raises ComException or one of its subclasses (BadPeer, NoSuchServerException, TimeException), so that a program which catches ComException survives every peer; any other exception comes from the caller's own channel.", "quantifier": "all peers, frames, keys, options and channel failures, both roles", "why_tests_cant": "false: a correctly encrypted M3 of the wrong size raises AssertionError, an empty frame AttributeError, a first frame of 1 to 4 bytes ValueError in the server; all cases are listed. Needs inputs that no honest peer sends, under the session's key", "anchors": ["saltchannel/v2/salt_client_session.py:SaltClientSession", "saltchannel/v2/salt_server_session.py:SaltServerSession", "saltchannel/v2/encrypted_channel_v2.py:57-66", "saltchannel/v2/exceptions.py", "saltchannel/v2/packets.py"]}
{"id": "C98", "title": "A recorded connection cannot be replayed", "statement": "A session that completes has a partner of its own: two completed sessions of one peer, reporting the same remote key, were never talking to one and the same run of the remote peer, so that nothing recorded from an earlier connection makes a later session complete or deliver messages again.", "quantifier": "for all lists of completed sessions of a server (client) that report one remote key, all lists of runs of remote peers, all libraries satisfying the NaCl laws; for the refutation, every completed session, every history on its channel and every later state of the clock", "why_tests_cant": "an attacker who recorded a connection chooses when and to whom to replay it; a unit test replays one recording of one session", "anchors": ["saltchannel/v2/salt_client_session.py:116-119", "saltchannel/v2/salt_client_session.py:33-33", "saltchannel/v2/salt_server_session.py:33-33", "saltchannel/v2/salt_server_session.py:151-154", "saltchannel/util/time.py:9-13"]}
{"id": "C99", "title": "Both ends of a connection name each other", "statement": "When a server completes a handshake and reports a client's public signing key, the run of that client it was talking to takes this very server (its public signing key) to be its peer in the same session; and when a client completes and reports a server's key, the server run it was talking to, if it completes, reports this client. There is no identity misbinding, although the signatures do not cover identities.", "quantifier": "for all runs, all lists of runs of the other party, all keys, clocks, settings of buffer_M2 / buffer_M4, all behaviour of the network, all libraries satisfying the NaCl laws; otherwise a hash collision, a forged signature or a forged box is exhibited", "why_tests_cant": "misbinding needs an attacker who takes part in two handshakes at once under another identity; unit tests connect two honest peers", "anchors": ["saltchannel/v2/salt_client_session.py:76-101", "saltchannel/v2/salt_server_session.py:108-148"]}
{"id": "C100", "title": "No key and nonce are used for two frames, over all connections", "statement": "Over all connections of all clients and servers, no two encrypted frames are made with the same key and nonce, so that recorded connections tell nothing about each other.", "quantifier": "for all lists of lives of clients and servers (a handshake and every later call on its channel), with whatever the network gave them, all libraries satisfying the NaCl laws; for the refutation, all pairs of connections with the same encryption key pairs and the published algorithms", "why_tests_cant": "a unit test looks at one connection; the nonces are constants of the protocol and start again in every connection", "anchors": ["saltchannel/v2/encrypted_channel_v2.py:31-77", "saltchannel/v2/salt_client_session.py:111-114", "saltchannel/v2/salt_server_session.py:138-141"]}
{"id": "C101", "title": "Time fields are the keeper's readings", "statement": "The time in every packet is what the session's time_keeper answered: get_first_time() for M1 and M2, one get_time() for M4 (M3) and one for each call of app_channel.write, shared by all packets of the call. A buffered M4 carries the time of the write that sends it, a buffered M2 that of M3. With a OneTwoThreeTimeKeeper of its own, a peer that buffers nothing therefore numbers what it sends 1, 2, 3, ..., as example_session3 announces; a client that buffers M4 skips 2, a server that buffers M2 sends 1, 1, 2, ...", "quantifier": "all clients and servers against arbitrary peers, all keepers and keeper states, all histories of reads and writes, failures included", "why_tests_cant": "Each reading is taken by a different piece of code, the packets are encrypted on the wire, and a write that fails also takes a reading: the numbering is a statement about whole histories.", "anchors": ["saltchannel/v2/salt_client_session.py:SaltClientSession.do_m1", "saltchannel/v2/salt_client_session.py:SaltClientSession.do_m4", "saltchannel/v2/salt_server_session.py:SaltServerSession.do_m2", "saltchannel/v2/salt_server_session.py:SaltServerSession.do_m3", "saltchannel/v2/app_channel_v2.py:AppChannelV2.write", "saltchannel/dev/example_session3.py:OneTwoThreeTimeKeeper"]}
{"id": "C102", "title": "Echo services answer exactly what arrived", "statement": "SimpleEchoSession.server_session on a SocketChannel returns without an exception for every byte stream, cutting and network failure, and has sent back exactly the non-empty messages at the head of the stream. SimpleEchoSessionA.server_session writes back exactly those messages too, and it closes the connection when the client ends the session. Every response an echo client reads is the message it sent.", "quantifier": "all byte streams, all cuttings, all failures of recv and sendall, all moments at which the end of the stream arrives, all numbers of requests, all schedules of client and server", "why_tests_cant": "The cuttings, failures and the moment of the end of stream are chosen by the network; a local test sees one of them. The last clause fails only if the end of stream arrives after at_eof was tested.", "anchors": ["saltchannel/dev/simple_echo_session.py:SimpleEchoSession.server_session", "saltchannel/dev/simple_echo_session.py:SimpleEchoSession.client_session", "saltchannel/dev/simple_echo_session_a.py:SimpleEchoSessionA.server_session", "saltchannel/dev/simple_echo_session_a.py:SimpleEchoSessionA.client_session", "saltchannel/channel.py:SocketChannel.read_sync", "saltchannel/dev/client_server_a.py:SaltChannelStreamReader.read_msg"]}
{"id": "C103", "title": "What last says between honest peers", "statement": "After the handshake app_channel.last is False; after a read it is the is_last flag of the peer's write that sent the message: for every message of a batch that travels in a MultiAppPacket, otherwise for the last message of the batch. Programs that look at last whenever they like end as if joined by two perfect queues of messages with flags.", "quantifier": "all pairs of programs on the two application channels, all batches and sizes that fit, all schedules, all cuttings of the streams, both buffering options (a client that buffers M4 writes first), all libraries with the NaCl laws", "why_tests_cant": "The flag is in the clear header of a frame while messages are queued, batched and decrypted elsewhere; which flag a program sees at which message depends on batching, queueing and the schedule.", "anchors": ["saltchannel/v2/app_channel_v2.py:AppChannelV2.last", "saltchannel/v2/app_channel_v2.py:AppChannelV2.read", "saltchannel/v2/app_channel_v2.py:AppChannelV2.write", "saltchannel/v2/encrypted_channel_v2.py:EncryptedChannelV2"]}
{"id": "C104", "title": "The example sessions end as announced", "statement": "example_session1: the client gets its request back and the server session ends because of the client's LastFlag. example_session3: the client gets its three requests back. A server session of the examples never raises: it returns after the LastFlag or when the connection breaks.", "quantifier": "all requests, key pairs, time keepers, buffering options and schedules (example 1: also all cuttings of the streams); any client for the last clause", "why_tests_cant": "The server loops over new sessions on one connection and leaves the loop by a flag that the peer sets; whether it ends, waits or raises depends on the peer.", "anchors": ["saltchannel/dev/example_session1.py:ExampleSession.server_session", "saltchannel/dev/example_session1.py:ExampleSession.client_session", "saltchannel/dev/example_session3.py:ExampleSession.server_session", "saltchannel/dev/example_session3.py:ExampleSession.client_session"]}
{"id": "C105", "title": "The fields of a packet are independent variables", "statement": "For every packet class, an assignment to a field is refused exactly when the value does not fit the field; after any sequence of assignments every field (type, reserved bits and variable part included) reads as the last value it accepted, integers modulo their width, flags set or cleared, or as before.", "quantifier": "all packet classes, all objects, all sequences of assignments and values", "why_tests_cant": "Fields share bytes (flags are bits) and wrap at different widths; the number of sequences is unbounded.", "anchors": ["saltchannel/util/packets.py:Packet.__setattr__", "saltchannel/util/packets.py:SmartStructure", "saltchannel/v2/packets.py:M2Packet", "saltchannel/v2/packets.py:M1Packet", "saltchannel/a1a2/packets.py:A2Packet"]}
{"id": "C106", "title": "A byte array assigned by name is what is sent", "statement": "After any sequence of assignments to attributes of a packet object, with whatever names and values, a byte array field reads as the last value of its length assigned to it, and the serialised packet carries exactly that.", "quantifier": "all packet classes, array fields, names, values and sequences of assignments", "why_tests_cant": "Assignment and reading are intercepted for every name; unboundedly many names, values and sequences.", "anchors": ["saltchannel/util/packets.py:Packet.__getattr__", "saltchannel/util/packets.py:Packet.__setattr__", "saltchannel/util/__init__.py:cbytes"]}
{"id": "C107", "title": "Serialising a packet has no effect on it", "statement": "What an M2Packet serialises to does not depend on whether it was serialised before.", "quantifier": "every sequence of calls on an M2Packet", "why_tests_cant": "The effect shows only in a later serialisation after another assignment: serialising an M2 that says NoSuchServer sets its LastFlag for good.", "anchors": ["saltchannel/v2/packets.py:M2Packet.__bytes__"]}
{"id": "C108", "title": "Attributes of a packet are its fields", "statement": "Reading an integer field of a packet object by name gives its value, and assigning a name that is not a field of the packet raises.", "quantifier": "all packet classes, names and values", "why_tests_cant": "A misspelt name shows nowhere but in the bytes sent: it is accepted, reads back and is not sent; integer fields read as that many zero bytes and cannot be assigned.", "anchors": ["saltchannel/util/packets.py:Packet.__getattr__", "saltchannel/util/packets.py:Packet.__setattr__", "saltchannel/util/__init__.py:cbytes"]}
{"id": "C109", "title": "A time checker of one's own sees exactly the times of the received handshake packets", "statement": "Whatever the time checker does and remembers between its calls, a handshake asks it for the time of each received packet that is good enough to be read, exactly once and in order (client: M2 as first message, then M3; server: M1 as first message, then M4), never for anything else, and the first negative answer is the outcome of the handshake. A handshake with a checker that remembers behaves like one with some checker that does not.", "quantifier": "all libraries, key pairs, checkers with any state, received frames and schedules", "why_tests_cant": "A user's checker (a clock, a monotonic counter) keeps state; tests run with the null checker, which is never seen to be called.", "anchors": ["saltchannel/v2/salt_client_session.py:do_m2", "saltchannel/v2/salt_client_session.py:do_m3", "saltchannel/v2/salt_server_session.py:do_m1", "saltchannel/v2/salt_server_session.py:do_m4", "saltchannel/util/time.py:TimeChecker"]}
{"id": "C110", "title": "A time checker of one's own sees exactly the times of the received application packets", "statement": "On an application channel the time checker is asked once for every application packet that opens under the channel's key, in the order received, and for nothing else; a packet whose time it rejects is never delivered, the read raises, and the channel goes on with the next packet. A checker that accepts every time, whatever it remembers, changes nothing.", "quantifier": "all libraries, keys, checkers with any state and histories of reads and writes", "why_tests_cant": "Replay and delay protection is exactly as good as the order of calls to a stateful checker over a whole connection; tests never install one.", "anchors": ["saltchannel/v2/app_channel_v2.py:AppChannelV2.read", "saltchannel/v2/app_channel_v2.py:AppChannelV2.write", "saltchannel/util/time.py:TimeChecker"]}
{"id": "C111", "title": "Validation may be put off", "statement": "Parsing an application packet without validation succeeds for every type byte exactly when the rest of the packet is well formed and gives the same fields and bytes; validating the parsed packet afterwards gives the verdict that validation while parsing would have given. The same holds for packets of several messages, for which in addition packets of no message can be read.", "quantifier": "all byte strings", "why_tests_cant": "Tests parse with validation on; the unvalidated way in is only reached by users' own code.", "anchors": ["saltchannel/v2/packets.py:AppPacket", "saltchannel/v2/packets.py:MultiAppPacket"]}
{"id": "C112", "title": "Hashes and signatures of the pure library raise nothing on arguments of the right size", "statement": "With every access to a list or bytearray checked as Python checks it (IndexError outside, ValueError for items that are no bytes): hashing returns SHA-512 of every message below 2^64 bytes; a 32-byte seed gives the RFC 8032 key pair; signing with a secret key of at least 64 bytes returns the RFC 8032 signature in front of the message; opening with a public key of at least 32 bytes returns the message exactly of signatures that hold, and otherwise raises NameError and nothing else. A key pair, signing and opening together return the message.", "quantifier": "all messages below 2^64 bytes, seeds, keys and signed messages", "why_tests_cant": "Stored items outside 0..255 or indices outside a list depend on carries in multi-precision arithmetic that no test vector is sure to reach; a raised ValueError or IndexError would break a handshake at random.", "anchors": ["saltchannel/saltlib/saltlib_pure.py:SaltLibPure.crypto_hash", "saltchannel/saltlib/saltlib_pure.py:SaltLibPure.crypto_sign_keypair_not_random", "saltchannel/saltlib/saltlib_pure.py:SaltLibPure.crypto_sign", "saltchannel/saltlib/saltlib_pure.py:SaltLibPure.crypto_sign_open", "saltchannel/saltlib/pure_pynacl/tweetnacl.py"]}
{"id": "C113", "title": "Boxes of the pure library raise nothing on arguments of the right size", "statement": "With every access to a list checked as Python checks it: a 32-byte secret key gives its X25519 public key; two key pairs agree on the 32-byte shared key; sealing with a nonce of at least 24 and a key of at least 32 bytes succeeds for messages of every length and returns 16 bytes more than the message (NaCl's box up to 16416 bytes); opening raises NameError exactly for boxes whose tag is wrong, and nothing else.", "quantifier": "all messages of any length, keys, nonces and boxes", "why_tests_cant": "Whether a carry leaves 0..255 in a list that bytes() converts depends on the data and, in the block counter, on the length of the message; no finite set of messages settles it.", "anchors": ["saltchannel/saltlib/saltlib_pure.py:SaltLibPure.crypto_box_keypair_not_random", "saltchannel/saltlib/saltlib_pure.py:SaltLibPure.crypto_box_beforenm", "saltchannel/saltlib/saltlib_pure.py:SaltLibPure.crypto_box_afternm", "saltchannel/saltlib/saltlib_pure.py:SaltLibPure.crypto_box_open_afternm", "saltchannel/saltlib/pure_pynacl/tweetnacl.py"]}
{"id": "C114", "title": "Arguments of the pure library that are too short always raise, and which exception", "statement": "A seed or box secret key that is not 32 bytes long raises ValueError when a key pair is made. A secret signing key under 64 bytes, a public key under 32 bytes when opening a signature of at least 64 bytes, a public or secret key under 32 bytes for a shared key, and a nonce under 24 or key under 32 bytes when sealing raise IndexError, always and whatever the other arguments are. When opening a box the IndexError is hidden: short nonces and keys raise NameError like a forged box.", "quantifier": "all arguments of every length (messages to sign below 2^64 bytes)", "why_tests_cant": "No check of lengths is in the code: the exception comes from deep in a loop, and a slip of one index would silently accept a short key for some arguments only.", "anchors": ["saltchannel/saltlib/saltlib_pure.py:SaltLibPure.crypto_sign_keypair_not_random", "saltchannel/saltlib/saltlib_pure.py:SaltLibPure.crypto_sign", "saltchannel/saltlib/saltlib_pure.py:SaltLibPure.crypto_sign_open", "saltchannel/saltlib/saltlib_pure.py:SaltLibPure.crypto_box_beforenm", "saltchannel/saltlib/saltlib_pure.py:SaltLibPure.crypto_box_afternm", "saltchannel/saltlib/saltlib_pure.py:SaltLibPure.crypto_box_open_afternm"]}
{"id": "C115", "title": "Every operation of the crypto front end is the published algorithm, with the documented exceptions", "statement": "Over back-end libraries that compute the published algorithms, and whichever back end is used: hashing gives SHA-512; signing key pairs come from the first 32 bytes given (ValueError for fewer) and encryption key pairs from exactly 32 bytes (else ValueError); signing puts the RFC 8032 signature in front of the message; opening returns the message exactly if the signature holds and raises BadSignatureException otherwise; the shared key is NaCl's (ValueError unless both keys are 32 bytes); encryption is NaCl's secretbox, and decryption returns m exactly for the box of m and raises only BadEncryptedDataException.", "quantifier": "all back ends, messages, keys, nonces, boxes and signed messages", "why_tests_cant": "Tests seal and open with the same back end, so arguments passed in the wrong order or a wrong amount of padding removed by both directions go unseen; interoperation with other implementations needs equality with the standard for all inputs.", "anchors": ["saltchannel/saltlib/saltlib.py:SaltLib", "saltchannel/saltlib/saltlib_native.py:SaltLibNative", "saltchannel/saltlib/saltlib_pynacl.py:SaltLibPyNaCl", "saltchannel/saltlib/saltlib_tweetnaclext.py:SaltLibTweetNaClExt"]}
{"id": "C116", "title": "A crypto library object uses the random generator it was asked to use", "statement": "Constructing the crypto library with an explicit generator makes random bytes come from that generator, or raises. What the code does: before the first construction that works, random_bytes raises AttributeError; that construction decides library and generator for the whole process, and all later ones return the same object and ignore what they ask for; an explicit library type works only with the default generator and then gives no library at all.", "quantifier": "all histories of constructions, library types, generators and availabilities of the native library over time", "why_tests_cant": "The generator is kept in a class attribute of a singleton, so which generator keys come from depends on the order of constructions in the whole process, not on the call under test.", "anchors": ["saltchannel/saltlib/saltlib.py:SaltLib.__init__", "saltchannel/saltlib/saltlib.py:SaltLib.random_bytes", "saltchannel/saltlib/saltlib.py:SaltLib.getLib", "saltchannel/util/__init__.py:Singleton"]}
{"id": "C117", "title": "The A1-A2 example ends on both sides, prints what the server offers and counts the bytes, and reports a refusal", "statement": "Over sockets and asyncio streams, with every cutting and schedule, both ends of the A1-A2 example return, the client prints the P1 and P2 the server was configured with and counts 37 bytes written and 23 read, and nothing is left on the wire. Against any peer the client prints only the first entry of a well-formed A2. The server uses a connection for one handshake, returns normally if that succeeds or the connection breaks, and otherwise lets the exception escape. A refusal, or an offer of nothing, is reported to the user.", "quantifier": "all schedules and cuttings, addresses, p-strings, frames of a peer, handshakes", "why_tests_cant": "One run of the example shows one schedule with a friendly server; peers that refuse, offer nothing or break off are never run.", "anchors": ["saltchannel/dev/example_session2.py:ExampleSession.server_session", "saltchannel/dev/example_session2.py:ExampleSession.client_session", "saltchannel/a1a2/a1_client_session.py:A1ClientSession", "saltchannel/dev/mitm_channel.py:MitmChannel"]}
{"id": "C118", "title": "A session object can be used for another handshake exactly as a new one", "statement": "Whatever a client or server session object has been through (handshakes that succeeded, failed, or answered an A1), another handshake() on it does the reads and writes of a newly built object with the same keys, buffering, A2 and clock, and ends the same way. After success the client object is equal to the new one, and the server object is too but for is_done.", "quantifier": "for all crypto libraries, time keepers and checkers, all states of the object, all peers and all lengths of the exchange", "why_tests_cant": "Every state left behind by every earlier exchange, times every later exchange: a test repeats one handshake.", "anchors": ["saltchannel/v2/salt_client_session.py:17-120", "saltchannel/v2/salt_server_session.py:20-154"]}
{"id": "C119", "title": "What a session object shows after a handshake is about that handshake", "statement": "After handshake() on a session object that was used before, app_channel, client_sig_key and is_done describe the handshake that just ended, not an earlier one.", "quantifier": "for all crypto libraries, all states of the object and all peers", "why_tests_cant": "It needs an arbitrary earlier history of the object; single-handshake tests never see a stale attribute.", "anchors": ["saltchannel/v2/salt_server_session.py:27-66", "saltchannel/v2/salt_server_session.py:133-141", "saltchannel/v2/salt_client_session.py:43-66"]}
{"id": "C120", "title": "A time checker of one's own raises no false alarm between honest peers", "statement": "Give AppChannelV2 any time checker, with a state of its own. If it accepts, in order, the readings of the honest sender's clock as the 32-bit time fields show them, every message is read in order, no read fails unless the channel below did, and the checker has been asked exactly those times. In particular a checker that refuses to go back never refuses a sender whose clock does not go back.", "quantifier": "all checkers and states, clocks, histories of writes and reads, deliveries of any initial part of the frames", "why_tests_cant": "A checker sees unboundedly many times of a long session; false as it stands for a checker that refuses to go back: a clock that only advances passes 2^32 ms (49.7 days), the field starts again from 0 and an honest message is refused and lost. No test runs that long", "anchors": ["saltchannel/util/time.py:18-27", "saltchannel/v2/app_channel_v2.py:AppChannelV2.read,write"]}
{"id": "C121", "title": "A client is not left waiting by a server that has given up", "statement": "With the servers of saltchannel.dev (MpClientServerPair over sockets, ClientServerPairA over asyncio) running the example sessions: if the session on the server's side ends, by returning or by raising, while the client waits for a message, then the connection is closed, the client's call raises and the client's session comes to its own end. For instance a client whose time is refused by the server's time checker.", "quantifier": "all client and server programs, key pairs, clocks and checkers, and all interleavings of the two ends, including when each end is closed", "why_tests_cant": "Whether a client hangs depends on every way the server can fail and on when the connection is closed; a hang is not observed by a test that passes. False for asyncio: the sessions close their channel only in their last line, so every exception leaves the connection open", "anchors": ["saltchannel/dev/client_server.py:60-101", "saltchannel/dev/client_server_a.py:23-32", "saltchannel/dev/example_session1_a.py:39-56", "saltchannel/dev/example_session3_a.py:52-73"]}
{"id": "C122", "title": "Clients of a server do not wait for each other", "statement": "With the servers of saltchannel.dev, any number of honest clients that connect at the same time are each answered exactly as if they were alone, both connections are closed and nothing is lost; and no client has to wait for what another one does.", "quantifier": "all numbers of clients, their keys, clocks, settings and requests, and all interleavings of all clients and the server", "why_tests_cant": "The interleavings grow without bound with the number of clients. The last clause is false for MpClientServerPair: socketserver.TCPServer runs one handler at a time, so somebody who connects and stays silent stops the service for everybody else", "anchors": ["saltchannel/dev/client_server.py:60-85", "saltchannel/dev/client_server_a.py:23-60"]}
{"id": "C123", "title": "Random key pairs of the pure library are the key pairs of the random bytes drawn", "statement": "crypto_box_..._keypair(y, x) and crypto_sign_ed25519_tweet_keypair(pk, sk) draw 32 bytes once; lists of the documented sizes then hold exactly the key pair that SaltLibPure makes of these 32 bytes as a seed, whatever they held before; longer lists keep what follows, and a list that is too short for the signing key raises IndexError.", "quantifier": "all results of os.urandom, all lists and what they hold", "why_tests_cant": "The result depends on 32 random bytes and on lists the caller supplies; every item of the result is one of two key algorithms over all of them", "anchors": ["saltchannel/saltlib/pure_pynacl/tweetnacl.py:61-68", "saltchannel/saltlib/pure_pynacl/tweetnacl.py:534-537", "saltchannel/saltlib/pure_pynacl/tweetnacl.py:780-795"]}
{"id": "C124", "title": "Boxes in one step", "statement": "crypto_box_..._tweet(c, m, d, n, pk, sk) writes NaCl's box under the shared key of pk and sk; crypto_box_..._tweet_open with the other side's keys accepts it, refuses everything whose tag is wrong, and writes the message.", "quantifier": "all messages, nonces, keys and lists for the results", "why_tests_cant": "All byte strings of all lengths; true up to 16416 bytes only, and the message is never written: the last line of opening replaces all that was decrypted by 32 zeros", "anchors": ["saltchannel/saltlib/pure_pynacl/tweetnacl.py:557-568", "saltchannel/saltlib/pure_pynacl/tweetnacl.py:317-336"]}
{"id": "C125", "title": "The byte counts the example programs print", "statement": "The clients of the example sessions print how many bytes the handshake took in each direction and how many the whole session took, as their MitmChannel counted them: 162 and 158 bytes for M1 to M4, then 24 bytes beside each message (26 and two per message when several go in one packet).", "quantifier": "all requests of all sizes, all programs on the application channel, all schedules and cuttings of the streams, with and without buffering of M2 and M4", "why_tests_cant": "Unbounded schedules, messages and programs; and it is false for example_session1: it buffers M4, so that what it prints as handshake bytes lacks 120 of them", "anchors": ["saltchannel/dev/example_session1.py:52-92", "saltchannel/dev/example_session3.py:71-141", "saltchannel/dev/mitm_channel.py:24-86", "saltchannel/dev/client_server.py:84-107"]}
{"id": "C126", "title": "Running several client sessions: what is waited for, what is reported", "statement": "MpClientServerPair.run_sessions returns only when every client has been through its session (or failed to connect) and has closed its socket, never raises, and has logged exactly the exceptions of the clients that failed; is_session_active is True exactly while a session is active. ClientServerPairA.run_sessions waits for all client processes, returns if all succeeded and otherwise raises the exception of a client.", "quantifier": "all numbers of clients, all outcomes of each of them, all schedules of the threads and processes", "why_tests_cant": "Unbounded schedules of unboundedly many threads; and is_session_active is False while a session is active when another client ends first, and is never reset by ClientServerPairA", "anchors": ["saltchannel/dev/client_server.py:74-101", "saltchannel/dev/client_server_a.py:84-117"]}
{"id": "C127", "title": "Two programs over a TunnelMP", "statement": "What one end of a TunnelMP writes, the other end reads, in order and nothing else; so two programs of channel calls, in particular a client and a server session, do over a TunnelMP whatever they do over any other channel.", "quantifier": "all pairs of programs of channel calls (unbounded, interactive), all schedules", "why_tests_cant": "Programs of any length under any schedule; and it is false: write(msg) with bytes, as the API says, raises TypeError before anything is sent, so that a client session fails at its first write and a server waits for ever", "anchors": ["saltchannel/dev/tunnel.py:26-41", "saltchannel/channel.py:12-33"]}
{"id": "C128", "title": "Threads can share a channel through its synchronous methods", "statement": "Several threads call read_sync and write_sync of one application channel. However they are scheduled, the calls that are not refused have exactly the effects they would have one after the other, in the order in which they end, so that no two frames share a nonce; each thread makes its own calls in order; a refused call raises RuntimeError and has no effect. And a thread can write while another one waits for a message.", "quantifier": "all numbers of threads, all their programs, all states of the channel, all answers of the channel below, all schedules", "why_tests_cant": "A race needs a certain schedule, of which a test sees few; refusals depend on the moment of the call.", "anchors": ["saltchannel/util/__init__.py:37-62", "saltchannel/v2/app_channel_v2.py:25-64"]}
{"id": "C129", "title": "Threads can write on one socket channel", "statement": "Several threads call write_sync of one socket channel. Every message arrives intact and those of a call arrive together, in whatever order the calls are made; this holds with and without a lock around the calls.", "quantifier": "all numbers of threads, all their calls and messages, all ways in which the socket takes the bytes in pieces, all schedules", "why_tests_cant": "The socket takes short messages in one piece in a test; interleaving needs a full send buffer at the right moment.", "anchors": ["saltchannel/channel.py:58-98"]}
{"id": "C130", "title": "Nonces stay unique when threads write", "statement": "Several threads, each with a loop of its own, write through one encrypted channel. No two frames are encrypted under one nonce; this holds with and without a lock around the calls. With a lock, the frames are those of the calls, one after the other.", "quantifier": "all numbers of threads, all their calls and messages, all keys and states of the channel, all schedules", "why_tests_cant": "The window between the encryption and the increment of the nonce is too short to be hit by a test.", "anchors": ["saltchannel/v2/encrypted_channel_v2.py:22-32", "saltchannel/v2/encrypted_channel_v2.py:68-77"]}
{"id": "C131", "title": "Threads can read from one socket channel", "statement": "Several threads call read_sync of one socket channel. Every message that was sent is returned by exactly one call, unchanged, in the order in which the calls end; calls raise ComException only after the last message, when the stream has ended; this holds with and without a lock around the calls.", "quantifier": "all numbers of threads and calls, all messages, all ways in which the socket delivers the bytes in pieces, all schedules", "why_tests_cant": "The two parts of a message usually arrive together, so that a test does not see one thread take the length and another one what follows.", "anchors": ["saltchannel/channel.py:68-79", "saltchannel/channel.py:91-98"]}
{"id": "C132", "title": "Tasks of one event loop go on while one of them waits for a message", "statement": "While a task awaits read() of its channel, the event loop runs the other tasks of the same loop. In particular a client and a server session that are connected with each other can be two tasks of one loop, and end as they would in two processes.", "quantifier": "all programs of the tasks and their number, all orders in which the loop runs them, all messages; AsyncioChannel and SocketChannel, also both in one loop", "why_tests_cant": "False for SocketChannel, whose coroutines block: a test with the two ends in two threads or processes never shows it, and with AsyncioChannel a test runs one order of the tasks.", "anchors": ["saltchannel/channel.py:46-52", "saltchannel/channel.py:62-66", "saltchannel/channel.py:68-98", "saltchannel/v2/salt_client_session.py:43-55", "saltchannel/v2/salt_server_session.py:47-66"]}
{"id": "C133", "title": "A session exchanges a fixed number of messages, whoever the peer is", "statement": "Whatever the peer sends and however the channel fails, a client handshake makes at most two writes and two reads, in a fixed order, a server handshake at most two reads and two writes, a service query one write and one read, a read of the application channel at most one read, and a write one write; one that returns normally has made all of them. The first call of the channel that raises is the last one, and its exception comes out unchanged.", "quantifier": "all states of the sessions and channels, all peers, all failures of the channel, all executions, also cut off anywhere", "why_tests_cant": "A hostile peer can answer in unboundedly many ways; tests try a few, and none of them counts the calls.", "anchors": ["saltchannel/v2/salt_client_session.py:43-118", "saltchannel/v2/salt_server_session.py:47-154", "saltchannel/v2/app_channel_v2.py:25-64", "saltchannel/a1a2/a1_client_session.py:14-20"]}
{"id": "C134", "title": "A reader that stops at last has got everything, whatever the network does", "statement": "A program reads from an application channel until last is True. Whatever an attacker without keys does to the frames, when the program stops without an exception it has got all messages the peer wrote up to the one marked is_last; and what it got is in any case a prefix of what the authenticated peer wrote.", "quantifier": "every list of messages, every place at which the attacker cuts, every server run and every set of honest clients", "why_tests_cant": "the first part is false: the attacker may cut anywhere; the second speaks of all runs of an attacker", "anchors": ["saltchannel/v2/app_channel_v2.py:AppChannelV2.last,read", "saltchannel/v2/encrypted_channel_v2.py:EncryptedChannelV2.read"]}
{"id": "C135", "title": "One thread can read from an application channel while another one writes to it", "statement": "One thread awaits read() of an application channel while another one awaits write() of it, each in a loop of its own, over a channel that can be read and written at once (SocketChannel). However they are switched, neither notices the other: the calls have the results, the frames and the final state they have one after the other, in every order that keeps the order of each thread; and neither waits for the other.", "quantifier": "every state of the channel, all calls, all frames that arrive, all failures of the channel below, every switching of the threads between accesses to attributes", "why_tests_cant": "there are unboundedly many interleavings of the accesses to attributes", "anchors": ["saltchannel/v2/app_channel_v2.py:AppChannelV2.read,write", "saltchannel/v2/encrypted_channel_v2.py:EncryptedChannelV2.read,write,unwrap", "saltchannel/v2/encrypted_channel_v2.py:Nonce.advance"]}
{"id": "C136", "title": "A signature made in one handshake is of no use in another", "statement": "Two handshakes in which a client was shown the same server signature, under a key that was made from a seed, had M1s and M2s with the same hashes, unless two different signed texts have the same SHA-512 hash modulo the order of the curve; the same for the client's signature and two servers. So nobody, not even the holder of the key, can prepare a signature that fits several handshakes.", "quantifier": "all seeds, signatures, clients, servers, clocks, options, peers and back ends, each run in any execution", "why_tests_cant": "ranges over all signatures, also ones that no signing function makes; it fails for keys that no seed makes", "anchors": ["saltchannel/v2/salt_client_session.py:SaltClientSession", "saltchannel/v2/salt_server_session.py:SaltServerSession", "saltchannel/saltlib/saltlib_base.py"]}
