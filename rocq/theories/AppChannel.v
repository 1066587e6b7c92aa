(** Model of saltchannel/v2/app_channel_v2.py.  Definitions only. *)
From Coq Require Import List ZArith Bool Strings.Byte.
From Verif Require Import PyBase IO Packets Crypto Time EncChannel.
Import ListNotations.
Open Scope Z_scope.
Open Scope m_scope.

(** The attributes of an [AppChannelV2] (lines 13-19); [ac_tk] is the state of
    the time keeper object it refers to.  Simplified: the keeper's state is owned
    by this side (not shared between peers of one process). *)
Record ac : Type := AC {
  ac_enc : ec;                    (* self.channel *)
  ac_tk : Z;                      (* state of self.time_keeper *)
  ac_buffered_m4 : option bytes;  (* self.buffered_m4 (its data buffer) *)
  ac_readq : list bytes           (* self.readQ *)
}.

(** [last], lines 21-23 *)
Definition ac_last (s : ac) : bool := ec_last_flag (ac_enc s).

Definition ac_set_enc (e : ec) (s : ac) : ac := AC e (ac_tk s) (ac_buffered_m4 s) (ac_readq s).
Definition ac_set_readq (q : list bytes) (s : ac) : ac := AC (ac_enc s) (ac_tk s) (ac_buffered_m4 s) q.

(** [AppChannelV2.__init__], lines 13-19 *)
Definition ac_init (e : ec) (tk : Z) : ac := AC e tk None [].

Section WithLib.
  Variable L : lib.
  Variable TK : tkeeper.
  Variable TC : tchecker.

  (** lines 30-39: interpretation of a decrypted chunk; returns the value and the
      messages to be queued *)
  Definition ac_interpret (raw : bytes) : res (bytes * list bytes) :=
    match app_ctor raw false with
    | Err e => Err e
    | Ok ap =>
        if app_type ap =? TYPE_APP_PACKET then
          match app_validate ap with
          | Err e => Err e
          | Ok _ => match tc_check TC (app_time ap) with
                    | Err e => Err e
                    | Ok _ => match app_data ap with
                              | Ok d => Ok (d, [])
                              | Err e => Err e
                              end
                    end
          end
        else
          match multi_ctor raw true with
          | Err e => Err e
          | Ok mp => match tc_check TC (multi_time mp) with
                     | Err e => Err e
                     | Ok _ => match mp_msgs mp with
                               | Some (m :: r) => Ok (m, r)
                               | Some [] => Err IndexError
                               | None => Err AttributeError
                               end
                     end
          end
    end.

  (** [read], lines 25-39 *)
  Definition ac_read : M ac bytes :=
    s <- mget ;;
    match ac_readq s with
    | m :: q => mput (ac_set_readq q s) ;;; mret m
    | [] =>
        raw <- mzoom ac_enc ac_set_enc (ec_read L) ;;
        x <- mlift (ac_interpret raw) ;;
        mmod (ac_set_readq (snd x)) ;;;
        mret (fst x)
    end.

  (** lines 57-62: the raw packets of one batch with time [t].  The single
      AppPacket object is reused; every field that is serialised is reassigned. *)
  Definition ac_packets (t : Z) (msgs : list bytes) : list bytes :=
    if should_use msgs then
      [multi_bytes (multi_create_opt_fields msgs
                     (multi_set_count (zlen msgs) (multi_set_time t multi_new)))]
    else
      map (fun m => pkt_bytes (app_set_data m (app_set_time t app_new))) msgs.

  (** [write], lines 41-64 *)
  Definition ac_write (message : bytes) (args : list bytes) (is_last : bool) : M ac unit := fun s =>
    let msgs := message :: args in
    let (t, tk') := tk_get TK (ac_tk s) in
    let m4 := match ac_buffered_m4 s with
              | Some d => [pkt_bytes (Pkt (m34_set_time t d) None)]
              | None => []
              end in
    let s1 := AC (ac_enc s) tk' None (ac_readq s) in
    match m4 ++ ac_packets t msgs with
    | [] => Ret (s1, Err IndexError)
    | m :: r => mzoom ac_enc ac_set_enc (ec_write L m r is_last) s1
    end.
End WithLib.
