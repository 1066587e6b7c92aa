(** Two threads and one [AppChannelV2] (saltchannel/v2/app_channel_v2.py, over
    saltchannel/v2/encrypted_channel_v2.py): one awaits [read], the other [write], each in an event
    loop of its own ([asyncio.run] or a loop per thread), over a channel that can be read and
    written at the same time, such as a [SocketChannel] (channel.py:57-97).  The threads may
    be switched at any point: every access to an attribute of the shared objects is a step of
    its own.  Definitions only. *)
From Coq Require Import List ZArith Bool Strings.Byte.
From Verif Require Import PyBase IO Packets Crypto Time EncChannel AppChannel EncUse.
Import ListNotations.
Open Scope Z_scope.

(** Where the reading thread is in app_channel_v2.py:25-39 and encrypted_channel_v2.py:57-66. [t] is
    what the call has done on the channel below. *)
Inductive dread : Type :=
| DOut                                             (* between calls *)
| DPop                                             (* app 26 was true, before 27 *)
| DTest                                            (* app 26 was false, before enc 58 *)
| DPush (raw : bytes)                              (* before enc 60 *)
| DWait                                            (* in enc 62: waits for a message *)
| DRaw (t : list ev) (raw : bytes)                 (* before enc 64, 95: the flag is stored *)
| DBody (t : list ev) (body : bytes)               (* before enc 64, 81: [decrypt] *)
| DLoad (t : list ev) (clear : bytes)              (* before enc 65, 29: the nonce is loaded *)
| DStore (t : list ev) (clear : bytes) (v : Z)     (* before it is stored *)
| DClear (t : list ev) (clear : bytes)             (* before app 30 *)
| DQueue (t : list ev) (d : bytes) (q : list bytes). (* before app 38 *)

(** Where the writing thread is in app_channel_v2.py:41-64 and encrypted_channel_v2.py:68-74, with
    the call it is in *)
Definition dcall : Type := bytes * list bytes * bool.
Inductive dwrite : Type :=
| EOut                                                  (* between calls *)
| ETime (c : dcall)                                     (* before app 43 *)
| ETest (c : dcall) (now : Z)                           (* before app 46 *)
| EClear (c : dcall) (now : Z) (raws : list bytes)      (* before app 49 *)
| ELoop (c : dcall) (ms out : list bytes)               (* at enc 71 *)
| ELoad (c : dcall) (ms out : list bytes)               (* before enc 73, 29: the nonce is loaded *)
| EStore (c : dcall) (ms out : list bytes) (v : Z).     (* before it is stored *)

(** The objects, the two threads with the calls they are still going to make, and the calls
    that have returned *)
Record duplex : Type := Duplex {
  d_ac : ac;
  d_read : dread;
  d_reads : nat;
  d_write : dwrite;
  d_writes : list dcall;
  d_rlog : list ecall;
  d_wlog : list ecall
}.

(** Assignments to single attributes *)
Definition put_queue (q : list bytes) (s : ac) : ac := AC (ac_enc s) (ac_tk s) (ac_buffered_m4 s) q.
Definition put_push (v : bytes) (s : ac) : ac :=
  AC (ec_set_pushback v (ac_enc s)) (ac_tk s) (ac_buffered_m4 s) (ac_readq s).
Definition put_flag (v : bool) (s : ac) : ac :=
  AC (ec_set_last_flag v (ac_enc s)) (ac_tk s) (ac_buffered_m4 s) (ac_readq s).
Definition put_rnonce (v : Z) (s : ac) : ac :=
  AC (EC (ec_key (ac_enc s)) (ec_pushback (ac_enc s)) (ec_last_flag (ac_enc s)) v (ec_write_nonce (ac_enc s)) (ec_session_nonce (ac_enc s)))
     (ac_tk s) (ac_buffered_m4 s) (ac_readq s).
Definition put_wnonce (v : Z) (s : ac) : ac :=
  AC (EC (ec_key (ac_enc s)) (ec_pushback (ac_enc s)) (ec_last_flag (ac_enc s)) (ec_read_nonce (ac_enc s)) v (ec_session_nonce (ac_enc s)))
     (ac_tk s) (ac_buffered_m4 s) (ac_readq s).
Definition put_tk (v : Z) (s : ac) : ac := AC (ac_enc s) v (ac_buffered_m4 s) (ac_readq s).
Definition put_m4 (v : option bytes) (s : ac) : ac := AC (ac_enc s) (ac_tk s) v (ac_readq s).

Section WithLib.
  Variable L : lib.
  Variable TK : tkeeper.
  Variable TC : tchecker.

  (** A step of the reading thread: what the objects become, where the thread is then, and the
      result if the call returns or raises.  The message that arrives, or the exception of the
      channel below, is any ([dr_get], [dr_fail]). *)
  Inductive drstep : ac -> dread -> ac -> dread -> option (list ev * res bytes) -> Prop :=
  | dr_queued : forall s, ac_readq s <> [] -> drstep s DOut s DPop None
  | dr_pop : forall s m q, ac_readq s = m :: q -> drstep s DPop (put_queue q s) DOut (Some ([], Ok m))
  | dr_empty : forall s, ac_readq s = [] -> drstep s DOut s DTest None
  | dr_pushed : forall s, ec_pushback (ac_enc s) <> [] -> drstep s DTest s (DPush (ec_pushback (ac_enc s))) None
  | dr_push : forall s raw, drstep s (DPush raw) (put_push [] s) (DRaw [] raw) None
  | dr_wait : forall s, ec_pushback (ac_enc s) = [] -> drstep s DTest s DWait None
  | dr_get : forall s raw, drstep s DWait s (DRaw [ERead (Ok raw)] raw) None
  | dr_fail : forall s e, drstep s DWait s DOut (Some ([ERead (Err e)], Err e))
  | dr_unwrap : forall s t raw ep body, ep_ctor raw = Ok ep -> ep_body ep = Ok body ->
      drstep s (DRaw t raw) (put_flag (ep_last_flag ep) s) (DBody t body) None
  | dr_nobody : forall s t raw ep e, ep_ctor raw = Ok ep -> ep_body ep = Err e ->
      drstep s (DRaw t raw) (put_flag (ep_last_flag ep) s) DOut (Some (t, Err e))
  | dr_unwrap_err : forall s t raw e, ep_ctor raw = Err e -> drstep s (DRaw t raw) s DOut (Some (t, Err e))
  | dr_decrypt : forall s t body clear, ec_decrypt L (ac_enc s) body = Ok clear -> drstep s (DBody t body) s (DLoad t clear) None
  | dr_decrypt_err : forall s t body e, ec_decrypt L (ac_enc s) body = Err e -> drstep s (DBody t body) s DOut (Some (t, Err e))
  | dr_load : forall s t clear, drstep s (DLoad t clear) s (DStore t clear (ec_read_nonce (ac_enc s))) None
  | dr_store : forall s t clear v, drstep s (DStore t clear v) (put_rnonce (v + 2) s) (DClear t clear) None
  | dr_parse : forall s t clear d q, ac_interpret TC clear = Ok (d, q) -> drstep s (DClear t clear) s (DQueue t d q) None
  | dr_parse_err : forall s t clear e, ac_interpret TC clear = Err e -> drstep s (DClear t clear) s DOut (Some (t, Err e))
  | dr_extend : forall s t d q, drstep s (DQueue t d q) (put_queue (ac_readq s ++ q) s) DOut (Some (t, Ok d)).

  (** A step of the writing thread.  The time keeper is asked in one step; the packets of the
      call (lines 51-62) are local to the thread; the answer of the channel below is any
      ([dw_send]).  Line 72 reads the nonce once, in one step. *)
  Inductive dwstep : ac -> dwrite -> ac -> dwrite -> option (dcall * list ev * res unit) -> Prop :=
  | dw_time : forall s c, dwstep s (ETime c) (put_tk (snd (tk_get TK (ac_tk s))) s) (ETest c (fst (tk_get TK (ac_tk s)))) None
  | dw_m4 : forall s c now d, ac_buffered_m4 s = Some d ->
      dwstep s (ETest c now) s (EClear c now [pkt_bytes (Pkt (m34_set_time now d) None)]) None
  | dw_clear : forall s m args last now raws,
      dwstep s (EClear (m, args, last) now raws) (put_m4 None s) (ELoop (m, args, last) (raws ++ ac_packets now (m :: args)) []) None
  | dw_plain : forall s m args last now, ac_buffered_m4 s = None ->
      dwstep s (ETest (m, args, last) now) s (ELoop (m, args, last) (ac_packets now (m :: args)) []) None
  | dw_encrypt : forall s m args last p ms out c, ec_encrypt L (ac_enc s) p = Ok c ->
      dwstep s (ELoop (m, args, last) (p :: ms) out) s (ELoad (m, args, last) ms (out ++ [ec_wrap c (last && is_empty ms)])) None
  | dw_raise : forall s m args last p ms out e, ec_encrypt L (ac_enc s) p = Err e ->
      dwstep s (ELoop (m, args, last) (p :: ms) out) s EOut (Some (m, args, last, [], Err e))
  | dw_load : forall s c ms out, dwstep s (ELoad c ms out) s (EStore c ms out (ec_write_nonce (ac_enc s))) None
  | dw_store : forall s c ms out v, dwstep s (EStore c ms out v) (put_wnonce (v + 2) s) (ELoop c ms out) None
  | dw_send : forall s m args last out r,
      dwstep s (ELoop (m, args, last) [] out) s EOut (Some (m, args, last, [EWrite out last r], r)).

  (** A step of either thread.  A call of the reading thread begins with the step after [DOut],
      one of the writing thread takes the next call.  What [last] says is looked at when a read
      has returned. *)
  Inductive dstep : duplex -> duplex -> Prop :=
  | ds_begin : forall s n w cs rl wl s' p', drstep s DOut s' p' None ->
      dstep (Duplex s DOut (S n) w cs rl wl) (Duplex s' p' n w cs rl wl)
  | ds_read : forall s p n w cs rl wl s' p', p <> DOut -> drstep s p s' p' None ->
      dstep (Duplex s p n w cs rl wl) (Duplex s' p' n w cs rl wl)
  | ds_return : forall s p n w cs rl wl s' p' t r, p <> DOut -> drstep s p s' p' (Some (t, r)) ->
      dstep (Duplex s p n w cs rl wl) (Duplex s' p' n w cs (rl ++ [EcRead t r (ac_last s')]) wl)
  | ds_call : forall s p n c cs rl wl, dstep (Duplex s p n EOut (c :: cs) rl wl) (Duplex s p n (ETime c) cs rl wl)
  | ds_write : forall s p n w cs rl wl s' w', dwstep s w s' w' None ->
      dstep (Duplex s p n w cs rl wl) (Duplex s' p n w' cs rl wl)
  | ds_written : forall s p n w cs rl wl s' w' m args last t r, dwstep s w s' w' (Some (m, args, last, t, r)) ->
      dstep (Duplex s p n w cs rl wl) (Duplex s' p n w' cs rl (wl ++ [EcWrite m args last t r])).
End WithLib.

Definition dinit (s : ac) (n : nat) (cs : list dcall) : duplex := Duplex s DOut n EOut cs [] [].

(** ** Specification *)

Inductive dsteps (L : lib) (TK : tkeeper) (TC : tchecker) : duplex -> duplex -> Prop :=
| dss_nil : forall d, dsteps L TK TC d d
| dss_step : forall d d1 d2, dstep L TK TC d d1 -> dsteps L TK TC d1 d2 -> dsteps L TK TC d d2.

(** [h] is [a] and [b], shuffled *)
Inductive shuffle {X} : list X -> list X -> list X -> Prop :=
| sh_nil : shuffle [] [] []
| sh_left : forall x a b h, shuffle a b h -> shuffle (x :: a) b (x :: h)
| sh_right : forall x a b h, shuffle a b h -> shuffle a (x :: b) (x :: h).

(** The reading thread is between calls or waits for a message. *)
Definition idle (p : dread) : Prop := p = DOut \/ p = DWait.
