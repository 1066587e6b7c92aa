(** C105: the fields of packet objects are independent variables; C107: the effect of
    serialising. *)
From Coq Require Import List ZArith Bool Strings.Byte Lia ZifyBool ZifyNat ZifyN.
From Verif Require Import PyBase PyBase_proofs Packets Packets_proofs PacketOps PacketOps_proofs Fields Fields_proofs.
Import ListNotations.
Open Scope Z_scope.
Ltac Zify.zify_post_hook ::= Z.div_mod_to_equations.

(** The fields of the objects of class [c] that satisfy [good] are independent
    variables: an assignment raises exactly when the value does not fit the kind of
    the field; after any sequence of assignments (exceptions caught) every field,
    including those that cannot be assigned, reads as the last value it accepted,
    or as before when there was none. *)
Definition independent (c : class) (good : obj c -> Prop) : Prop :=
  (forall o f v, good o -> (put c f v o = None <-> held (kind_of c f) v = None)) /\
  forall (dec : forall a b : field c, {a = b} + {a <> b}) l o, good o ->
    good (assigns c o l) /\ forall f, get c f (assigns c o l) = latest c dec f l (get c f o).

(** The objects meant: those whose fixed part has its fixed size.  New objects are,
    and parsing any bytes keeps them so, whether it raises or not (second and third
    clause of each theorem). *)
Definition sized {A} (data : A -> bytes) (n : nat) (o : A) : Prop := length (data o) = n.

Lemma independent_of : forall c good, lawful c good -> independent c good.
Proof.
  intros c good L. split; [apply (lawful_accepts c good L)|].
  intros dec l o G. apply (lawful_assigns c good dec L l o G).
Qed.

Ltac same :=
  first
    [ reflexivity
    | rewrite bit_same by lia; reflexivity
    | rewrite signed_same by lia; reflexivity
    | rewrite int_same by lia; reflexivity
    | rewrite fget_fput by lia; reflexivity ].

Ltac other :=
  first
    [ reflexivity
    | rewrite bit_other by lia; reflexivity
    | rewrite raw_bit_same by lia; reflexivity
    | f_equal; apply raw_bit_off;
      [ lia | rewrite ?fput_bit_len, ?fput_int_len, ?fput_len by lia; lia
      | first [rewrite int_off by lia | rewrite bit_off by lia | rewrite fget_fput_off by lia]; reflexivity ]
    | unfold fget_bit, fget_int; rewrite ?firstn_fget;
      first [rewrite int_off by lia | rewrite bit_off by lia | rewrite fget_fput_off by lia]; reflexivity ].


(** ** M1Packet *)
Theorem C105_m1 :
  independent M1Class (sized m1_data 42) /\ sized m1_data 42 m1_new /\
  (forall p src, sized m1_data 42 p -> sized m1_data 42 (fst (m1_from_bytes p src))) /\
  (** assigning the server key changes no other field *)
  (forall p k q f, m1_set_server_sig_key k p = Ok q -> f <> M1ServerKey ->
     get M1Class f q = get M1Class f p).
Proof.
  split; [|split; [reflexivity|split]].
  - apply independent_of. intros o f v G. unfold sized, bytes in *. cbn [obj field get put kind_of M1Class] in *.
    destruct f; cbn [m1_kind held]; try reflexivity; destruct v as [b|z|b| | | ]; try reflexivity; cbn [m1_put].
    + eexists. split; [reflexivity|]. unfold m1_set_flag. cbn [m1_data]. split; [rewrite fput_bit_len; lia|].
      split; [unfold m1_get, m1_flag; cbn [m1_data]; same|].
      intros g N. destruct g; try contradiction; unfold m1_get, m1_flag, m1_time, m1_client_enc_key, m1_server_sig_key;
        cbn [m1_data m1_opt m1_shadow]; other.
    + eexists. split; [reflexivity|]. unfold m1_set_time. cbn [m1_data]. split; [rewrite fput_int_len; lia|].
      split; [unfold m1_get, m1_time; cbn [m1_data]; same|].
      intros g N. destruct g; try contradiction; unfold m1_get, m1_flag, m1_time, m1_client_enc_key, m1_server_sig_key;
        cbn [m1_data m1_opt m1_shadow]; other.
    + unfold m1_set_client_enc_key, fset_array. destruct (Nat.eqb_spec (length b) 32) as [H|H]; [|reflexivity].
      eexists. split; [reflexivity|]. cbn [m1_data]. split; [rewrite fput_len; lia|].
      split; [unfold m1_get, m1_client_enc_key; cbn [m1_data]; same|].
      intros g N. destruct g; try contradiction; unfold m1_get, m1_flag, m1_time, m1_client_enc_key, m1_server_sig_key;
        cbn [m1_data m1_opt m1_shadow]; other.
  - intros p src H. unfold m1_from_bytes, sized in *. cbn [fst m1_data]. rewrite struct_from_bytes_length. exact H.
  - intros p k q f E N. unfold m1_set_server_sig_key in E. destruct (m1_flag p); [|discriminate].
    destruct (m1_opt p) as [b|]; [destruct (Nat.eqb (length k) (length b)); [|discriminate]|];
      injection E as <-; destruct f; try contradiction; reflexivity.
Qed.
Print Assumptions C105_m1.

(** ** M2Packet.  Serialising changes one field only: the last-flag of a packet
    that says there is no such server. *)
Theorem C105_m2 :
  independent M2Class (sized (fun d => d) 38) /\ sized (fun d => d) 38 m2_new /\
  (forall d src, sized (fun d => d) 38 d -> sized (fun d => d) 38 (fst (m2_from_bytes d src))) /\
  (forall d, sized (fun d => d) 38 d ->
     sized (fun d => d) 38 (m2_bytes d) /\
     get M2Class M2Last (m2_bytes d) = VFlag (m2_last_flag d || m2_no_such_server d) /\
     forall f, f <> M2Last -> get M2Class f (m2_bytes d) = get M2Class f d).
Proof.
  assert (L : lawful M2Class (sized (fun d => d) 38)).
  { intros o f v G. unfold sized, bytes in *. cbn [obj field get put kind_of M2Class] in *.
    destruct f; cbn [m2_kind held]; try reflexivity; destruct v as [b|z|b| | | ]; try reflexivity; cbn [m2_put].
    - eexists. split; [reflexivity|]. unfold m2_set_no_such_server. split; [rewrite fput_bit_len; lia|].
      split; [unfold m2_get, m2_no_such_server; same|].
      intros g N. destruct g; try contradiction; unfold m2_get, m2_no_such_server, m2_last_flag, m2_time, m2_server_enc_key; other.
    - eexists. split; [reflexivity|]. unfold m2_set_last_flag. split; [rewrite fput_bit_len; lia|].
      split; [unfold m2_get, m2_last_flag; same|].
      intros g N. destruct g; try contradiction; unfold m2_get, m2_no_such_server, m2_last_flag, m2_time, m2_server_enc_key; other.
    - eexists. split; [reflexivity|]. unfold m2_set_time. split; [rewrite fput_int_len; lia|].
      split; [unfold m2_get, m2_time; same|].
      intros g N. destruct g; try contradiction; unfold m2_get, m2_no_such_server, m2_last_flag, m2_time, m2_server_enc_key; other.
    - unfold m2_set_server_enc_key, fset_array. destruct (Nat.eqb_spec (length b) 32) as [H|H]; [|reflexivity].
      eexists. split; [reflexivity|]. split; [rewrite fput_len; lia|].
      split; [unfold m2_get, m2_server_enc_key; same|].
      intros g N. destruct g; try contradiction; unfold m2_get, m2_no_such_server, m2_last_flag, m2_time, m2_server_enc_key; other. }
  split; [apply independent_of; exact L|]. split; [reflexivity|]. split.
  - intros d src H. unfold m2_from_bytes, fixed_from_bytes, sized in *. cbn [fst]. rewrite struct_from_bytes_length. exact H.
  - intros d H. unfold m2_bytes. destruct (m2_no_such_server d) eqn:E.
    + destruct (L d M2Last (VFlag true) H) as [o' [P [G [V O]]]]. injection P as <-.
      split; [exact G|]. split; [rewrite orb_true_r; exact V|exact O].
    + split; [exact H|]. split; [rewrite orb_false_r; reflexivity|reflexivity].
Qed.
Print Assumptions C105_m2.

(** ** M3Packet and M4Packet *)
Theorem C105_m3_m4 :
  independent M34Class (sized (fun d => d) 102) /\
  sized (fun d => d) 102 m3_new /\ sized (fun d => d) 102 m4_new /\
  (forall ty d src, sized (fun d => d) 102 d -> sized (fun d => d) 102 (fst (fixed_from_bytes ty d src))).
Proof.
  split; [|split; [reflexivity|split; [reflexivity|]]].
  - apply independent_of. intros o f v G. unfold sized, bytes in *. cbn [obj field get put kind_of M34Class] in *.
    destruct f; cbn [m34_kind held]; try reflexivity; destruct v as [b|z|b| | | ]; try reflexivity; cbn [m34_put].
    + eexists. split; [reflexivity|]. unfold m34_set_time. split; [rewrite fput_int_len; lia|].
      split; [unfold m34_get, m34_time; same|].
      intros g N. destruct g; try contradiction; unfold m34_get, m34_time, m34_sig_key, m34_signature; other.
    + unfold m34_set_sig_key, fset_array. destruct (Nat.eqb_spec (length b) 32) as [H|H]; [|reflexivity].
      eexists. split; [reflexivity|]. split; [rewrite fput_len; lia|].
      split; [unfold m34_get, m34_sig_key; same|].
      intros g N. destruct g; try contradiction; unfold m34_get, m34_time, m34_sig_key, m34_signature; other.
    + unfold m34_set_signature, fset_array. destruct (Nat.eqb_spec (length b) 64) as [H|H]; [|reflexivity].
      eexists. split; [reflexivity|]. split; [rewrite fput_len; lia|].
      split; [unfold m34_get, m34_signature; same|].
      intros g N. destruct g; try contradiction; unfold m34_get, m34_time, m34_sig_key, m34_signature; other.
  - intros ty d src H. unfold fixed_from_bytes, sized in *. cbn [fst]. rewrite struct_from_bytes_length. exact H.
Qed.
Print Assumptions C105_m3_m4.

(** ** EncryptedPacket *)
Theorem C105_encrypted :
  independent EPClass (sized p_data 2) /\ sized p_data 2 ep_new /\
  (forall p src, sized p_data 2 p -> sized p_data 2 (fst (ep_from_bytes p src))).
Proof.
  split; [|split; [reflexivity|]].
  - apply independent_of. intros o f v G. unfold sized, bytes in *. cbn [obj field get put kind_of EPClass] in *.
    destruct f; cbn [ep_kind held]; try reflexivity; destruct v as [b|z|b| | | ]; try reflexivity; cbn [ep_put].
    + eexists. split; [reflexivity|]. unfold ep_set_last_flag. cbn [p_data]. split; [rewrite fput_bit_len; lia|].
      split; [unfold ep_get, ep_last_flag; cbn [p_data]; same|].
      intros g N. destruct g; try contradiction; unfold ep_get, ep_last_flag, ep_body; cbn [p_data p_opt]; other.
    + eexists. split; [reflexivity|]. split; [exact G|]. split; [reflexivity|].
      intros g N. destruct g; try contradiction; reflexivity.
  - intros p src H. unfold ep_from_bytes, sized in *. destruct (zlen src - 2 <? 0); cbn [fst p_data];
      rewrite struct_from_bytes_length; exact H.
Qed.
Print Assumptions C105_encrypted.

(** ** AppPacket and MultiAppPacket *)
Theorem C105_app :
  (independent APClass (sized p_data 6) /\ sized p_data 6 app_new /\
   forall p src v, sized p_data 6 p -> sized p_data 6 (fst (app_from_bytes p src v))) /\
  (independent MPClass (sized mp_data 8) /\ sized mp_data 8 multi_new /\
   forall p src v, sized mp_data 8 p -> sized mp_data 8 (fst (multi_from_bytes p src v))).
Proof.
  split; (split; [|split; [reflexivity|]]).
  - apply independent_of. intros o f v G. unfold sized, bytes in *. cbn [obj field get put kind_of APClass] in *.
    destruct f; cbn [app_kind held]; try reflexivity; destruct v as [b|z|b| | | ]; try reflexivity; cbn [app_put].
    + eexists. split; [reflexivity|]. unfold app_set_time. cbn [p_data]. split; [rewrite fput_int_len; lia|].
      split; [unfold app_get, app_time; cbn [p_data]; same|].
      intros g N. destruct g; try contradiction; unfold app_get, app_type, app_time, app_data; cbn [p_data p_opt]; other.
    + eexists. split; [reflexivity|]. split; [exact G|]. split; [reflexivity|].
      intros g N. destruct g; try contradiction; reflexivity.
  - intros p src v H. unfold app_from_bytes, sized in *. destruct (zlen src - 6 <? 0); cbn [fst p_data];
      rewrite struct_from_bytes_length; exact H.
  - apply independent_of. intros o f v G. unfold sized, bytes in *. cbn [obj field get put kind_of MPClass] in *.
    destruct f; cbn [multi_kind held]; try reflexivity; destruct v as [b|z|b| |m| ]; try reflexivity; cbn [multi_put].
    + eexists. split; [reflexivity|]. unfold multi_set_time. cbn [mp_data]. split; [rewrite fput_int_len; lia|].
      split; [unfold multi_get, multi_time; cbn [mp_data]; same|].
      intros g N. destruct g; try contradiction; unfold multi_get, multi_time, multi_count; cbn [mp_data mp_msgs]; other.
    + eexists. split; [reflexivity|]. unfold multi_set_count. cbn [mp_data]. split; [rewrite fput_int_len; lia|].
      split; [unfold multi_get, multi_count; cbn [mp_data]; same|].
      intros g N. destruct g; try contradiction; unfold multi_get, multi_time, multi_count; cbn [mp_data mp_msgs]; other.
    + destruct m as [l|]; [|reflexivity]. eexists. split; [reflexivity|]. split; [exact G|]. split; [reflexivity|].
      intros g N. destruct g; try contradiction; reflexivity.
  - intros p src v H. unfold multi_from_bytes, sized in *.
    destruct (is_empty src); [cbn [fst mp_data]; rewrite struct_from_bytes_length; exact H|].
    destruct (multi_loop _ _ _); cbn [fst mp_data]; rewrite struct_from_bytes_length; exact H.
Qed.
Print Assumptions C105_app.

(** ** A1Packet and A2Packet *)
Theorem C105_a1_a2 :
  (independent A1Class (sized p_data 5) /\ sized p_data 5 a1_new /\
   forall p src, sized p_data 5 p -> sized p_data 5 (fst (a1_from_bytes p src))) /\
  (independent A2Class (sized p_data 3) /\ sized p_data 3 a2_new /\
   sized p_data 3 a2_no_such_server /\ sized p_data 3 a2_default /\
   forall word p src, sized p_data 3 p -> sized p_data 3 (fst (a2_from_bytes word p src))).
Proof.
  split; (split; [|split; [reflexivity|]]).
  - apply independent_of. intros o f v G. unfold sized, bytes in *. cbn [obj field get put kind_of A1Class] in *.
    destruct f; cbn [a1_kind held]; try reflexivity; destruct v as [b|z|b| | | ]; try reflexivity; cbn [a1_put].
    + eexists. split; [reflexivity|]. unfold a1_set_address_type. cbn [p_data]. split; [rewrite fput_int_len; lia|].
      split; [unfold a1_get, a1_address_type; cbn [p_data]; same|].
      intros g N. destruct g; try contradiction; unfold a1_get, a1_address_type, a1_address_size, a1_address; cbn [p_data p_opt]; other.
    + eexists. split; [reflexivity|]. unfold a1_set_address_size. cbn [p_data]. split; [rewrite fput_int_len; lia|].
      split; [unfold a1_get, a1_address_size; cbn [p_data]; same|].
      intros g N. destruct g; try contradiction; unfold a1_get, a1_address_type, a1_address_size, a1_address; cbn [p_data p_opt]; other.
    + eexists. split; [reflexivity|]. split; [exact G|]. split; [reflexivity|].
      intros g N. destruct g; try contradiction; reflexivity.
  - intros p src H. unfold a1_from_bytes, sized in *. destruct (zlen src - 5 <? 0); cbn [fst p_data];
      rewrite struct_from_bytes_length; exact H.
  - apply independent_of. intros o f v G. unfold sized, bytes in *. cbn [obj field get put kind_of A2Class] in *.
    destruct f; cbn [a2_kind held]; try reflexivity; destruct v as [b|z|b| | |[l|e]]; try reflexivity; cbn [a2_put].
    + eexists. split; [reflexivity|]. unfold a2_set_no_such_server. cbn [p_data]. split; [rewrite fput_bit_len; lia|].
      split; [unfold a2_get, a2_no_such_server_flag; cbn [p_data]; same|].
      intros g N. destruct g; try contradiction; unfold a2_get, a2_no_such_server_flag, a2_last_flag, a2_count, a2_prots; cbn [p_data p_opt]; other.
    + eexists. split; [reflexivity|]. unfold a2_set_last_flag. cbn [p_data]. split; [rewrite fput_bit_len; lia|].
      split; [unfold a2_get, a2_last_flag; cbn [p_data]; same|].
      intros g N. destruct g; try contradiction; unfold a2_get, a2_no_such_server_flag, a2_last_flag, a2_count, a2_prots; cbn [p_data p_opt]; other.
    + eexists. split; [reflexivity|]. unfold a2_set_count. cbn [p_data]. split; [rewrite fput_int_len; lia|].
      split; [unfold a2_get, a2_count; cbn [p_data]; same|].
      intros g N. destruct g; try contradiction; unfold a2_get, a2_no_such_server_flag, a2_last_flag, a2_count, a2_prots; cbn [p_data p_opt]; other.
    + change P_SIZE with 10%nat.
      match goal with |- context [forallb ?g l] => destruct (forallb g l) eqn:E; [|reflexivity] end.
      eexists. split; [reflexivity|]. split; [exact G|]. split; [unfold a2_get; rewrite a2_prots_set by exact E; reflexivity|].
      intros g N. destruct g; try contradiction; reflexivity.
  - split; [reflexivity|]. split; [reflexivity|].
    intros w p src H. unfold a2_from_bytes, sized in *. destruct ((zlen src - 3) / 20 <? 0); cbn [fst p_data];
      rewrite struct_from_bytes_length; exact H.
Qed.
Print Assumptions C105_a1_a2.

(** Serialising should have no effect on later serialisations.  False of M2Packet:
    a packet serialised while it said "no such server" keeps the last-flag after
    that is taken back. *)
Theorem C107_serialising_refuted :
  exists l, m2_bytes (m2_use l) <> m2_bytes (m2_use (unserialised l)).
Proof.
  exists [M2SetNoSuchServer true; M2Bytes; M2SetNoSuchServer false]. vm_compute. discriminate.
Qed.
Print Assumptions C107_serialising_refuted.

(** That is all: serialising an M2 between any other calls changes no field but the
    last-flag, and that only from false to true.  Missing from the claim: the
    last-flag itself. *)
Theorem C107_serialising_partial : forall l,
  (forall f, f <> M2Last -> get M2Class f (m2_use l) = get M2Class f (m2_use (unserialised l))) /\
  (m2_last_flag (m2_use (unserialised l)) = true -> m2_last_flag (m2_use l) = true).
Proof.
  intro l. assert (W : but_last (m2_use l) (m2_use (unserialised l))).
  { apply unserialised_but_last, but_last_refl. reflexivity. }
  split; [intros f N; apply but_last_get; auto|]. apply W.
Qed.
Print Assumptions C107_serialising_partial.

(** Case: times wrap, a key of the wrong length is refused, flags are set and
    cleared. *)
Example C105_case :
  let d := assigns M2Class m2_new
    [(M2NoSuch, VFlag true); (M2Time, VInt (2 ^ 32 + 7)); (M2Last, VFlag true);
     (M2NoSuch, VFlag false); (M2Key, VArr (repeat x41 32)); (M2Key, VArr [x42]); (M2Type, VInt 9)] in
  map (fun f => get M2Class f d) [M2Type; M2NoSuch; M2Last; M2Reserved 3; M2Time; M2Key] =
    [VInt 2; VFlag false; VFlag true; VFlag false; VInt 7; VArr (repeat x41 32)].
Proof. vm_compute. reflexivity. Qed.
