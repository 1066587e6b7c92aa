(** Time checkers with a state: saltchannel/util/time.py:18-27 as users implement it,
    and the code that calls them (saltchannel/v2/app_channel_v2.py:25-39,
    saltchannel/v2/salt_client_session.py:43-89,
    saltchannel/v2/salt_server_session.py:47-149).  [Time.tchecker] has no state;
    here every call may change the checker.  Definitions only. *)
From Coq Require Import List ZArith Bool Strings.Byte.
From Verif Require Import PyBase IO Packets Crypto Time EncChannel EncUse AppChannel Session.
Import ListNotations.
Open Scope Z_scope.
Open Scope m_scope.

(** A [TimeChecker], time.py:18-27, with state [X]: a call gives the new state and
    returns or raises.  Simplified: during a call of a session or channel nobody else
    uses the same checker. *)
Record checker (X : Type) : Type := Checker {
  ck_first : Z -> X -> X * res unit;   (* report_first_time *)
  ck_check : Z -> X -> X * res unit    (* check_time *)
}.
Arguments Checker {X} _ _.
Arguments ck_first {X} _ _ _.
Arguments ck_check {X} _ _ _.

(** Code that does not touch the checker. *)
Definition klift {X S A} (m : M S A) : M (X * S) A := mzoom snd (fun s xs => (fst xs, s)) m.
(** A call of the checker. *)
Definition kcall {X S} (f : X -> X * res unit) : M (X * S) unit :=
  fun xs => let (x, r) := f (fst xs) in Ret ((x, snd xs), r).

Section WithChecker.
  Variable L : lib.
  Variable TK : tkeeper.
  Variable X : Type.
  Variable C : checker X.

  (** [SaltClientSession.do_m2], salt_client_session.py:69-83; as [c_do_m2] *)
  Definition kc_do_m2 : M (X * cs) bool :=
    chunk <- mread ;;
    m2 <- mlift (m2_ctor chunk) ;;
    if negb (fget_int 0 1 m2 =? TYPE_M2) then klift (mmod (cs_set_m2 None)) ;;; mret false
    else
      klift (mmod (cs_set_m2 (Some m2))) ;;;
      kcall (ck_first C (m2_time m2)) ;;;
      klift (mmod (cs_set_m2_hash (l_sha512 L chunk))) ;;;
      if m2_no_such_server m2 then mraise NoSuchServerException else mret true.

  (** [do_m3], salt_client_session.py:85-89; as [c_do_m3] *)
  Definition kc_do_m3 : M (X * cs) unit :=
    chunk <- klift (c_enc_read L) ;;
    (if zlen chunk =? 2 + 4 + 32 + 64 then mret tt else mraise AssertionError) ;;;
    m3 <- mlift (m3_ctor chunk) ;;
    klift (mmod (cs_set_m3 (Some m3))) ;;;
    kcall (ck_check C (m34_time m3)).

  (** [handshake], salt_client_session.py:43-54; as [client_handshake] *)
  Definition kclient_handshake : M (X * cs) unit :=
    klift c_validate ;;;
    klift (c_do_m1 L TK) ;;;
    success <- kc_do_m2 ;;
    if negb success then mret tt
    else
      klift (c_create_encrypted_channel L) ;;;
      kc_do_m3 ;;;
      klift (c_validate_signature1 L) ;;;
      klift (c_do_m4 L TK).

  (** [SaltServerSession.do_m1], salt_server_session.py:79-99; as [s_do_m1] *)
  Definition ks_do_m1 : M (X * ss) (bool * bytes) :=
    chunk <- mread ;;
    s <- klift mget ;;
    match m1_ctor chunk with
    | Err BadPeer => klift (mmod (ss_set_m1 None)) ;;; mret (false, chunk)
    | Err e => mraise e
    | Ok m1 =>
        klift (mmod (ss_set_m1 (Some m1))) ;;;
        kcall (ck_first C (m1_time m1)) ;;;
        klift (mmod (ss_set_m1_hash (l_sha512 L chunk))) ;;;
        foreign <- (if m1_flag m1
                    then (k <- mlift (m1_server_sig_key m1) ;; mret (negb (bytes_eqb (kp_pub (ss_sig s)) k)))
                    else mret false) ;;
        if (foreign : bool) then
          let (t, tk') := tk_first TK (ss_tk s) in
          klift (mmod (ss_set_tk tk')) ;;;
          mwrite [m2_bytes (m2_set_no_such_server true (m2_set_time t m2_new))] true ;;;
          mraise NoSuchServerException
        else mret (true, chunk)
    end.

  (** [do_m4], salt_server_session.py:133-136; as [s_do_m4] *)
  Definition ks_do_m4 : M (X * ss) unit :=
    chunk <- klift (s_enc_read L) ;;
    m4 <- mlift (m4_ctor chunk) ;;
    klift (mmod (ss_set_m4 (Some m4))) ;;;
    kcall (ck_check C (m34_time m4)) ;;;
    klift (mmod (ss_set_client_sig_key (Some (m34_sig_key m4)))).

  (** [handshake], salt_server_session.py:47-66; as [server_handshake] *)
  Definition kserver_handshake : M (X * ss) unit :=
    klift s_validate ;;;
    x <- ks_do_m1 ;;
    if negb (fst x) then
      klift (s_do_a2 (snd x)) ;;;
      klift (mmod (ss_set_is_done true))
    else
      klift s_validate ;;;
      klift (s_do_m2 L TK) ;;;
      klift (s_create_encrypted_channel L) ;;;
      klift (s_do_m3 L TK) ;;;
      ks_do_m4 ;;;
      klift (s_validate_signature2 L).

  (** app_channel_v2.py:30-39, as [ac_interpret] *)
  Definition k_interpret (raw : bytes) : M (X * ac) (bytes * list bytes) :=
    ap <- mlift (app_ctor raw false) ;;
    if app_type ap =? TYPE_APP_PACKET then
      mlift (app_validate ap) ;;;
      kcall (ck_check C (app_time ap)) ;;;
      d <- mlift (app_data ap) ;;
      mret (d, [])
    else
      mp <- mlift (multi_ctor raw true) ;;
      kcall (ck_check C (multi_time mp)) ;;;
      match mp_msgs mp with
      | Some (m :: r) => mret (m, r)
      | Some [] => mraise IndexError
      | None => mraise AttributeError
      end.

  (** [AppChannelV2.read], app_channel_v2.py:25-39; as [ac_read] *)
  Definition k_read : M (X * ac) bytes :=
    s <- klift mget ;;
    match ac_readq s with
    | m :: q => klift (mput (ac_set_readq q s)) ;;; mret m
    | [] =>
        raw <- klift (mzoom ac_enc ac_set_enc (ec_read L)) ;;
        x <- k_interpret raw ;;
        klift (mmod (ac_set_readq (snd x))) ;;;
        mret (fst x)
    end.

  (** Histories of calls on one application channel; [AppChannelV2.write]
      (app_channel_v2.py:41-64) does not call the checker. *)
  Inductive k_hist : X -> ac -> list ecall -> X -> ac -> Prop :=
  | kh_nil : forall x s, k_hist x s [] x s
  | kh_read : forall x s t x1 s1 r h x2 s2,
      exec (k_read (x, s)) t (Some ((x1, s1), r)) -> k_hist x1 s1 h x2 s2 ->
      k_hist x s (EcRead t r (ac_last s1) :: h) x2 s2
  | kh_write : forall x s m args last t s1 r h x2 s2,
      exec (ac_write L TK m args last s) t (Some (s1, r)) -> k_hist x s1 h x2 s2 ->
      k_hist x s (EcWrite m args last t r :: h) x2 s2.

  (** One run of such a history, for examples. *)
  Fixpoint k_run (x : X) (s : ac) (ops : list eop) : list ecall * (X * ac) :=
    match ops with
    | [] => ([], (x, s))
    | OpRead ans :: r =>
        let '(t, ((x1, s1), y)) := io_run (k_read (x, s)) ans (Ok tt) in
        let (h, z) := k_run x1 s1 r in (EcRead t y (ac_last s1) :: h, z)
    | OpWrite m args last ans :: r =>
        let '(t, (s1, y)) := io_run (ac_write L TK m args last s) (Ok []) ans in
        let (h, z) := k_run x s1 r in (EcWrite m args last t y :: h, z)
    end.
End WithChecker.
