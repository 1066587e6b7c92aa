# Formal model of salt-channel-python in Rocq (Coq 8.16.1)

## Approach

The Python source is modelled function by function as small, total, computable
Gallina functions.  Every definition of the model cites the file and lines it
models.  Exceptions are values (`res A := Ok a | Err e`), object mutation is
explicit state, and I/O is an interaction tree (`io A`): a program is either
finished, asks the transport for a frame, or hands the transport a batch of
frames.  The answers (data, failure, cancellation) come from outside, so a
theorem over all answers ranges over all networks, attackers, I/O failures and
crash points (a crash is a trace prefix).

* Model files (`Py*.v`, `IO.v`, `Packets.v`, `Crypto.v`, `Channel.v`,
  `EncChannel.v`, `AppChannel.v`, `Session.v`, `SaltLib.v`, `Dev.v`, ...) hold
  definitions only.
* `Spec*.v` holds the independent specifications (wire layouts as
  concatenations of bytes, acceptance sets as predicates on byte strings,
  nonce sequences, ...).  They do not use model helpers.
* `*_proofs.v` hold lemmas; `Props_*.v` hold the property theorems, each closed
  with `exact`, followed by `Print Assumptions` and an `Example` exhibiting a
  non-trivial case meeting the hypotheses.

### Files

| model | specification / usage | lemmas | properties |
|-------|-----------------------|--------|------------|
| `PyBase` (bytes, struct, ints, exceptions), `Packets` | `Spec`, `PacketOps` (histories of packet operations) | `PyBase_proofs`, `Packets_proofs`, `A1A2_proofs`, `Packets_proofs2`, `PacketOps_proofs` | `Props_Packets` (C01-C08, C10-C15, C49, C50) |
| `Channel` (socket, asyncio) | `Spec` | `Channel_proofs` | `Props_Channel` (C16-C21) |
| `Crypto` (library record, NaCl laws), `EncChannel`, `Time` | `EncUse` (histories of channel calls) | `Crypto_proofs`, `EncChannel_proofs` | `Props_Enc` (C22-C27) |
| `IO` (interaction trees), `AppChannel` | `AppUse` | `IO_proofs`, `AppChannel_proofs` | `Props_App` (C09, C28-C31, C51, C52) |
| `Session` (client, server, A1 client) | `SessUse` (traces, two-party steps) | `Session_proofs`, `Session_steps`, `Sched_proofs`, `Session_fwd`, `Session_sched` | `Props_Session`..`Props_Session4` (C32-C43, C53, C57, C58), `Props_Empty` (C43), `Props_Wanted` (C37) |
| `Stack` (programs over byte streams, two connected peers) | `StackUse` | `Stack_proofs`, `Stack_fit` | `Props_Stack` (C62-C64) |
| `Pipe` (user programs over application channels) | `Pipe` | `Pipe_proofs` | `Props_Pipe` (C65, C66), `Props_Buffer` (C66) |
| `PyInt` (typed integers of pure_pynacl), `TwHash`, `TwSalsa`, `TwPoly`, `TwField`, `TwPure`, `TwSign` | `ShaSpec` (FIPS 180-4), `SalsaSpec` (Salsa20, HSalsa20, XSalsa20), `PolySpec` (RFC 8439 Poly1305, NaCl's secretbox), `CurveSpec` (RFC 7748 X25519), `EdSpec` (RFC 8032 Ed25519) | `PyInt_proofs`, `TwHash_proofs`, `TwSalsa_proofs`, `Radix_proofs`, `TwPoly_proofs`, `TwBox_proofs`, `TwField_proofs`, `TwPack_proofs`, `TwCurve_proofs`, `Fast25519` (evaluation), `Prime25519` (2^255-19 is prime), `PrimeL` (the order L is prime), `FieldP`, `Edwards` (group law over any field), `Curve25519`, `EdPoint` (extended coordinates, order of the base point, square roots), `TwSign_proofs`, `TwModL_proofs`, `TwEd_proofs`, `EdSig_proofs` | `Props_Pure` (C67-C69), `Props_Pure2` (C70-C74), `Props_Pure3` (C75-C78), `Props_Pure4` (C79), `Props_Pure5` (C80-C86), `Props_OneSig` (C84, C85) |
| | `StdLib` (a crypto library of the published algorithms) | `StdLib_proofs` | `Props_Std` (C87, C88) |
| `Tasks` (asyncio tasks sharing a channel), `Cancel` (cancelled reads) | `Tasks` | `Tasks_proofs` | `Props_Tasks` (C89, C90, C92), `Props_Lost` (C92, C52), `Props_Unsent` (C92), `Props_Cancel` (C91) |
| `util.Syncizer`, `*_sync` methods of all classes | `Sync` | | `Props_Sync` (C93) |
| `util.force_event_loop`, loop arguments of all constructors | `Loops` | | `Props_Loops` (C94) |
| shape of the frames of `AppChannelV2` | `AppChannel` | | `Props_Sizes` (C95) |
| both sessions and the calls of their users, active attacker | `Session`, `AppUse` | | `Props_E2E` (C96) |
| exceptions of both handshakes | `Session` | | `Props_Errors` (C97), `Props_Std2` (C96, C97 with the published algorithms), `Props_OneShake` (C136) |
| several connections of one peer, replay | `Session`, `AppChannel` | | `Props_Replay` (C98) |
| identities both ends report | `Session`, `AppChannel` | | `Props_Ident` (C99) |
| key streams over several connections | `Session`, `EncChannel`, `StdLib` | | `Props_Pad` (C100) |
| time fields of all packets | `Session`, `AppChannel` | | `Props_Clock` (C101) |
| `AppChannelV2.last` as user programs see it | `Flags` | `Flags_proofs` | `Props_Flags` (C103) |
| `dev/simple_echo_session*.py`, `dev/example_session1.py`, `dev/example_session2.py`, `dev/example_session3.py` (without printing) | `Examples` | | `Props_Examples` (C102, C104), `Props_Examples2` (C117) |
| the byte counts printed by `dev/example_session1.py`, `dev/example_session3.py` | `Counts` | `Stack_run`, `Counts_proofs` | `Props_Counts` (C125) |
| running several clients: `dev/client_server.py:74-101`, `dev/client_server_a.py:84-117` | `Harness` | `Harness_proofs` | `Props_Harness` (C126) |
| `TunnelMP` (`dev/tunnel.py:26-41`) under programs of channel calls | `TunnelMP` | | `Props_Tunnel` (C127) |
| threads sharing an `AppChannelV2` through its synchronous methods (`v2/app_channel_v2.py:25-64`, `util/__init__.py:37-62`), a `SocketChannel` (`channel.py:58-98`), an `EncryptedChannelV2` (`v2/encrypted_channel_v2.py:22-32,68-77`) | `Threads` | `Threads_proofs` | `Props_Threads` (C128-C130) |
| threads reading from one `SocketChannel` (`channel.py:68-79,91-98`) | `ReadThreads` | | `Props_ReadThreads` (C131) |
| tasks of one event loop over both channels (`channel.py:36-66`) | `EventLoop` | | `Props_EventLoop` (C132) |
| how many messages the sessions exchange (no new model) | | | `Props_Bounded` (C133) |
| a reader that stops at `last` (programs `write_all`, `read_until`; no new model) | | | `Props_Until` (C51), `Props_Cut` (C134) |
| `Duplex` (one reading and one writing thread, attribute by attribute) | `Duplex` (`shuffle`, `idle`) | in `Props_Duplex` | `Props_Duplex` (C135) |
| packet objects as named fields (`util/packets.py`, `v2/packets.py`, `a1a2/packets.py`) | `Fields` | `Fields_proofs` | `Props_Fields` (C105, C107), `Props_Fields2` (C105) |
| attribute access by name: `Packet.__getattr__`, `__setattr__`, `util.cbytes` | `Attrs` | | `Props_Attrs` (C106, C108) |
| time checkers that keep state, in both handshakes and in `AppChannelV2` | `Checked` | `Checked_proofs` | `Props_Checked` (C109, C110), `Props_Checked2` (C120) |
| lists, bytearrays and `bytes()` of the pure port that raise (`ChkPy`), with them the functions of `tweetnacl.py` and the methods of `SaltLibPure` once more | `ChkPy`, `ChkHash`, `ChkSalsa`, `ChkField`, `ChkSign` | `ChkHash_proofs`, `ChkSalsa_proofs`, `ChkField_proofs`, `ChkSign_proofs`, `ChkSig_proofs`, `ChkBox_proofs` | `Props_Pure6` (C112-C114) |
| the functions of `tweetnacl.py` that `SaltLibPure` does not call: random key pairs, boxes in one step | `TwKeys` | | `Props_Pure7` (C123, C124) |
| session objects used for several handshakes | `Session` | | `Props_Reuse` (C118, C119) |
| the servers of `dev/client_server.py` and `client_server_a.py`: closing, several connections at once | `Servers` | `Servers_proofs` | `Props_Servers` (C121, C122) |
| parsing of application packets with `validate=False` | `Packets` | | `Props_Postpone` (C111) |
| `SaltLib` over the published algorithms; its class attributes `_rand` and the registered object | `SaltRand`, `StdLib` | | `Props_Front` (C115, C116, a refusal of C40) |
| `SaltLib`, `Dev`, `Backends` | | | `Props_Misc` (C44-C48, C54-C57), `Props_Alone`, `Props_Shared` (C57), `Props_Backends` (C59-C61) |

### Representation

* `bytes := list byte` (`Coq.Init.Byte`), Python ints are `Z`.
* A ctypes structure is its byte buffer; field access is by offset, assignment
  wraps like ctypes, `from_bytes` is the partial `memmove` of
  `SmartStructure.from_bytes`.  The optional part is `option bytes`
  (`None` = the field-less `_EmptyBodyOpt`).
* Parsing mutates an existing object: `*_from_bytes : obj -> bytes -> obj * res unit`.
* The crypto library is a record of functions (`lib`), its NaCl laws a separate
  `Record ... : Prop` used as a hypothesis only where needed; a concrete
  instance shows the laws satisfiable.  Security statements are reductions: the
  conclusion is the security property *or* an explicit collision/forgery.
* Two-party executions: two `io` programs and two FIFO queues; schedules are
  arbitrary.  A diamond argument turns one canonical run into a statement about
  all schedules.
* Sockets: a byte stream cut into arbitrary `recv` chunks.

### Properties that are false of the code

If the English expectation fails for the faithful model, the theorem is named
`..._refuted` and exhibits the witness, normally accompanied by a theorem
describing the actual behaviour for all inputs; the manifest status of such a
property is `partial` and the note says what the code really does.

## Plan per property

| id | modelled | proof |
|----|----------|-------|
| C01-C04 | `M1..M4Packet` buffers, setters, `__bytes__`, constructors | field-offset lemmas; spec = concatenation layout |
| C05-C08, C10 | all constructors of `v2/packets.py` on arbitrary input | case analysis; induction over the MultiApp loop |
| C09 | app-level read of arbitrary payload | refuted by witness + exact exception classification |
| C11-C13 | `a1a2/packets.py`, UTF-8 decoder, regex with abstract Unicode word class | case analysis/induction |
| C14 | all nine constructors | first-byte classification |
| C15, C50, C49 | `Packet.__setattr__`, opt handling, object reuse | length lemmas, witnesses |
| C16-C19 | `SocketChannel` on a chunked stream | induction over chunks and messages |
| C20-C21 | `AsyncioChannel`, stream reader/writer | same stream model; refutation for C21 |
| C22-C27 | `EncryptedChannelV2`, `Nonce` | invariant over arbitrary operation histories |
| C28-C31 | `AppChannelV2` | induction over batches |
| C32 | both sessions in the two-party system | canonical run + diamond lemma |
| C33-C36, C38 | sessions against arbitrary trace | inversion of the interaction tree |
| C37, C39, C41, C43 | same | refuted by witness + actual behaviour |
| C40, C42 | A1/A2 path of the server, `A1ClientSession` | case analysis |
| C44, C45 | `SaltLib.getLib`, `Singleton` | case analysis, induction over constructions |
| C46, C47 | `MitmChannel`, `Tunnel` | induction over operations |
| C48, C57 | `OneTwoThreeTimeKeeper`, singleton clocks | induction |
| C51, C52 | `AppChannelV2.last`, first write of the client | refuted for every batch / every failure; for C51 also end to end, with the batches for which it holds (`C51_until_last_partial`) |
| C53 | `SaltServerSession.do_m4` | refuted for every claimed key; proved that only a failing signature in M4 does it |
| C54, C55 | `SaltLib` key constructors, explicit library types | case analysis; invariant over constructions |
| C56 | `MitmChannel` log buffering | induction over the program |
| C58 | sessions + `MitmChannel` counters | confluence + exact trace of a run |
| C59, C60 | the three back end classes over an abstract C library | case analysis |
| C61 | `SaltLibPure`, abstract base class check | refuted; induction over constructions |
| C62 | any `io` program over `SocketChannel`/`AsyncioChannel` | induction over the program; stream reader lemmas |
| C63 | two peers, byte streams with arbitrary cutting and scheduling | simulation of the frame-level system; lexicographic termination |
| C64 | handshakes over a socket fed by an attacker | C33/C34 lifted through C62 |
| C65 | arbitrary user programs on both application channels | simulation of two message queues + confluence |
| C66 | same, client with M4 buffered | refuted for every program that reads first; same outcome for every program that writes first |
| C67 | `tweetnacl.py` SHA-512 on typed integers | refinement of FIPS 180-4, induction over rounds and blocks |
| C68 | `tweetnacl.py` Salsa20 core | word-by-word simulation modulo 2^32, induction over rounds |
| C69 | `tweetnacl.py` stream functions | induction over blocks; refuted at block 257 |
| C70 | `tweetnacl.py` add1305, Poly1305, verify | digits as numbers; loop invariant modulo 2^130-5; induction over blocks |
| C71 | `crypto_box_afternm` | from C69, C70; refuted at 16417 bytes |
| C72-C74 | `crypto_box_open_afternm` | from C69, C70; C73 and C74 refuted |
| C75-C77 | `tweetnacl.py` field arithmetic, ladder, `crypto_box_beforenm` | limb bounds, value modulo 2^255-19, loop invariant against RFC 7748 |
| C79 | as C77 | 2^255-19 is prime (Pocklington certificate); the twisted Edwards curve is a group (complete addition law, associativity by ring with the curve equations as rewrite rules); the ladder computes the Montgomery coordinate of a multiple of the base point |
| C78 | as C77 | refuted: invariant of the ladder from the zero point |
| C80-C81 | `tweetnacl.py` point arithmetic, `modL`, `crypto_sign` | extended coordinates against the affine group law; loop invariants of `modL` (value modulo L, digit bounds) |
| C82 | as C81, C83 | the base point has order L |
| C83 | `crypto_sign_open` | square roots modulo p = 5 mod 8 (Euler's criterion from Fermat); group law |
| C84-C86 | as C83 | refuted |
| C87 | back ends over `StdLib` | from the group law, C59, C60 |
| C88 | whole stack over `StdLib` | C65 without its hypotheses about cryptography |
| C89 | tasks cut at their awaits, shared attributes | invariant (one reader: nobody else touches `readQ`), induction over the execution |
| C90 | same, several readers | permutation invariant; order refuted for every batch |
| C91 | `StreamReader.readexactly` with cancellation | exact state after a cancellation; refuted |
| C92 | as C28 | refuted for every batch, whether the frames of the failed write arrived or not |
| C93 | class creation, method lookup, channel stacks | induction over the hierarchy and the stack; refuted for the empty methods of `ByteChannel` |
| C94 | a thread and its loops | invariant over constructions; refuted for clients in new threads |
| C95 | as C28 | induction over histories; sizes by the box length law |
| C96 | as C24, C28, C35 | reduction: agreement of the handshakes, then counters in step from the first application frame |
| C97 | as C32-C35 | inversion of every step of the handshake; refuted by exhibited frames |
| C98 | as C35, C96 | induction on the list of sessions, distinct keys give distinct M2 (M1); refuted by simulating a second session step by step and its channel by induction on the history |
| C99 | as C35, C96 | M3 (M4) opens to what the matched peer sealed at that counter, or a box forgery; the buffered M4 by induction on the history |
| C100 | as C22, C96; `StdLib` for the refutation | all frames of a life are sealed at consecutive counters of one parity; XSalsa20 streams are prefixes of each other |
| C101 | as C28, C35 | induction over histories (one reading per write call), inversion of the handshakes |
| C102 | echo servers over arbitrary streams; client and server over cut streams | trace of the server loop + C62; induction over the stream; C63; counterexample for closing |
| C103 | arbitrary programs that look at `last`, on both application channels | simulation of two queues of flagged messages + confluence |
| C104 | whole example sessions with the server's loop | C103 composed with the loop; counterexample with an A1 request |
| C105 | assignments to named fields of each class; specification: last accepted value | get/put laws of bytes, integers and bits, lifted to sequences |
| C106 | tables of body fields, instance dictionary for other names | table facts by computation (disjointness), induction over assignments |
| C107 | histories of M2 calls with and without serialisations | counterexample; simulation of states equal but for the last-flag |
| C108 | attribute access by name | refutations for all integer fields, all other names |
| C109 | handshake with a stateful checker = handshake with the stateless checker that answers alike; order of its questions | case analysis on both handshake machines |
| C110 | questions of the application channel to a stateful checker | induction over histories of channel calls |
| C111 | parsing without validation, validation afterwards | case analysis on the frame |
| C112-C113 | `tweetnacl.py` with the exceptions of lists, bytearrays and `bytes()` | refinement to the model without exceptions (C67-C86): lengths of lists and ranges of stored items are loop invariants |
| C114 | same, short arguments | the first access outside an argument; all earlier steps only raise IndexError |
| C115 | all calls of `SaltLib` over the published algorithms, per back end | case analysis on requests and back ends |
| C116 | all histories of constructions of `SaltLib` in a process | induction over the history; refutation for every history |
| C117 | the A1-A2 example over byte streams, and each end against any peer | four steps of the framed system, C63; case analysis on executions |
| C118 | a used session object against a new one, any state and any peer | relation between two io programs that keeps reads and writes equal, then C02/C03's machine form |
| C119 | stale attributes of a used session object | executions built for any state (refutations); the relation of C118 for the remainder |
| C120 | a checker with state between honest peers | the checker's history is replaced, step by step, by that of one which accepts everything, then C28's argument; the times are those of C101; an execution for the refutation |
| C121 | how a connection ends when the server's session has ended | step relation of a connection with closing and resets; an invariant that counts the steps gives that all schedules end in one state |
| C122 | several connections, one at a time and as tasks | steps left add up over the connections; an invariant of the blocked server for the refutation |
| C123 | random key pairs of the pure library | the checked functions equal the unchecked ones (C112, C113), whose results are known |
| C124 | boxes in one step | the same; one block of key stream differs for the refutation |
| C125 | whole sessions of any two programs with the client's `MitmChannel`; the example programs | C103 for the programs that also count their writes; runs of programs of the same shape have the same traces; sizes of what the handshakes and writes of a trace send; runs over streams whose total is below 2 GiB |
| C126 | threads sharing an attribute, and processes awaited in any order | invariants over all interleavings; every step decreases the work left; schedules for the refutations |
| C127 | programs of channel calls run on the ends of a pipe | every call of `write` with bytes ends in TypeError (induction on the program); simulation of queues by the pipe; confluence gives every schedule |
| C128 | threads, a channel and what its loop runs | invariant over all schedules: the calls that ran form a sequential history; induction on schedules for the refutation |
| C129 | threads in `sendall` of one socket, which sends in pieces | schedule for the refutation, for all messages; invariant over all schedules with a lock, then C16 |
| C130 | threads in `write`, with `value += 2` in two steps | schedule for the refutation, for all states and messages; invariant: what is left of the call in progress completes a sequential write; then C22 |
| C131 | threads in `recvall` of one socket, which delivers in pieces | schedule for the refutation, for all messages; invariant over all schedules with a lock |
| C132 | a loop that runs one task at a time, which suspends or not depending on the channel | induction on the program of the running task; invariant with a bound on the turns (connected pair); the stuck schedules for sockets |
| C133 | executions of the sessions against any peer | induction on executions of programs of a given shape |
| C134 | programs that read until `last`, frames changed by an attacker | refuted for every place of the cut; prefix statement from C96 |
| C135 | one reading and one writing thread on one application channel | simulation: the state splits in what reads and what writes use |
| C136 | both handshakes with the published algorithms | the base point has prime order L, so S and R fix the hash modulo L; inversion of the runs |

## Not modelled (and why)

* In `TwHash` to `TwSign` an access outside a list reads 0 or writes nothing.  This
  is a simplification of these files only: `ChkPy` to `ChkSign` follow the same code
  with IndexError and ValueError, and C112-C114 prove that the two agree.
* Types of arguments other than `bytes` (None, str, memoryview) for the pure port.

* The C libraries behind `SaltLibNative/PyNaCl/TweetNaClExt`: external code;
  represented by the `lib` record and its laws.  `SaltLibNative.randombytes` hands the C
  function one argument instead of two; what that does is outside Python.
* Event loop internals (beyond the interleaving of tasks in C89-C91 and the choice of a loop in C94, and the turns of tasks in C132), several threads at once (beyond C121, C122, C126, C128-C131 and C135), real sockets, logging text: only their effect
  on channel calls is visible in the model.
* `dev/` example scripts beyond the classes and programs named above: printing,
  (but for the byte counts, C125), logging, and starting and stopping the server's process or loop only.  `Servers` has
  whole frames in flight, an unlimited queue of connections not yet accepted, and
  a time keeper for every session (what sharing one does: C57).

## Trusted base

Coq's kernel; what `Print Assumptions` prints under each theorem (see the build
log: "Closed under the global context" for every property theorem, i.e. no
axioms at all); the fidelity of the model definitions to the cited lines (by
inspection).

`coqchk` additionally lists the axioms of every standard library file that is
loaded, whether used or not.  These are the seven of `Coq.ssr.ssrunder`
(`Under_rel.Under_rel`, `Under_rel.Under_rel_from_rel`, `Under_rel.Under_relE`,
`Under_rel.over_rel`, `Under_rel.over_rel_done`, `Under_rel.under_rel_done`,
`Under_rel.Over_rel`), loaded by `Lia`/`ZifyBool`.  No theorem depends on them.

Laws of the crypto library (`nacl_laws`, `nacl_fail_laws`, `keygen_laws`,
`sodium_laws`) are hypotheses of the theorems that need them, not axioms.  C87
proves all of them of a library made of the published algorithms; the examples use
a toy instance that is quick to evaluate.
