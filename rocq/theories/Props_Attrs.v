(** C106, C108: attributes of packet objects. *)
From Coq Require Import Strings.String List ZArith Bool Strings.Byte Lia ZifyBool ZifyNat ZifyN.
From Verif Require Import PyBase PyBase_proofs Packets PacketOps_proofs Fields Fields_proofs Attrs.
Import ListNotations.
Open Scope Z_scope.

(** The packet classes of the model, with the size of their fixed part. *)
Definition classes : list (list fdesc * nat) :=
  [(M1_fields, 42%nat); (M2_fields, 38%nat); (M3_fields, 102%nat); (M4_fields, 102%nat); (EP_fields, 2%nat);
   (AP_fields, 6%nat); (MP_fields, 8%nat); (A1_fields, 5%nat)].

(** Specification: what the attribute [n] was last given, if that was [len] bytes. *)
Fixpoint last_given (n : string) (len : nat) (l : list (string * pyval)) (old : bytes) : bytes :=
  match l with
  | [] => old
  | (m, v) :: r =>
      last_given n len r
        (if String.eqb m n
         then match v with PBytes b => if Nat.eqb (length b) len then b else old | PInt _ => old end
         else old)
  end.

Lemma find_in : forall n t f, find_field n t = Some f -> In f t /\ fd_name f = n.
Proof.
  intros n t f. induction t as [|g t IH]; cbn [find_field]; [discriminate|].
  destruct (String.eqb_spec n (fd_name g)) as [E|E].
  - intro H. injection H as <-. split; [left; reflexivity|auto].
  - intro H. destruct (IH H). split; [right|]; auto.
Qed.

(** Layout facts of the tables: fields lie inside the structure and do not overlap. *)
Definition disjoint (f g : fdesc) : bool :=
  (Nat.leb (fd_off f + fd_len f) (fd_off g) || Nat.leb (fd_off g + fd_len g) (fd_off f))%bool.
Definition sound_table (c : list fdesc * nat) : bool :=
  forallb (fun f => Nat.leb (fd_off f + fd_len f) (snd c) &&
    forallb (fun g => String.eqb (fd_name f) (fd_name g) || disjoint f g) (fst c))%bool (fst c).

Lemma tables_sound : forall c, In c classes -> sound_table c = true.
Proof. apply (proj1 (forallb_forall sound_table classes)). vm_compute. reflexivity. Qed.

Lemma table_bound : forall t n f, In (t, n) classes -> In f t -> (fd_off f + fd_len f <= n)%nat.
Proof.
  intros t n f C F. pose proof (tables_sound _ C) as S. unfold sound_table in S. rewrite forallb_forall in S.
  specialize (S f F). apply andb_prop in S. destruct S as [S _]. cbn [snd] in S. apply Nat.leb_le in S. exact S.
Qed.

Lemma table_apart : forall t n f g, In (t, n) classes -> In f t -> In g t -> fd_name f <> fd_name g ->
  (fd_off f + fd_len f <= fd_off g \/ fd_off g + fd_len g <= fd_off f)%nat.
Proof.
  intros t n f g C F G N. pose proof (tables_sound _ C) as S. unfold sound_table in S. rewrite forallb_forall in S.
  specialize (S f F). apply andb_prop in S. destruct S as [_ S]. rewrite forallb_forall in S. specialize (S g G).
  destruct (String.eqb_spec (fd_name f) (fd_name g)) as [E|E]; [contradiction|]. cbn [orb] in S.
  unfold disjoint in S. apply orb_prop in S. destruct S as [S|S]; apply Nat.leb_le in S; auto.
Qed.

Lemma attr_do_step : forall t n o m v f, In (t, n) classes -> length (po_data o) = n ->
  find_field (fd_name f) t = Some f ->
  length (po_data (attr_do t o (m, v))) = n /\
  fget (fd_off f) (fd_len f) (po_data (attr_do t o (m, v))) =
    if String.eqb m (fd_name f)
    then match fd_type f, v with
         | TArray, PBytes b => if Nat.eqb (length b) (fd_len f) then b else fget (fd_off f) (fd_len f) (po_data o)
         | _, _ => fget (fd_off f) (fd_len f) (po_data o)
         end
    else fget (fd_off f) (fd_len f) (po_data o).
Proof.
  intros t n o m v f C L F. unfold attr_do, attr_set. cbn [fst snd].
  destruct v as [z|b]; cbn [cbytes].
  - destruct (z <? 0); (split; [exact L|]); destruct (String.eqb m (fd_name f)); destruct (fd_type f); reflexivity.
  - destruct (find_field m t) as [g|] eqn:G.
    + destruct (find_in _ _ _ F) as [IF _]. destruct (find_in _ _ _ G) as [IG NG].
      pose proof (table_bound t n f C IF) as BF. pose proof (table_bound t n g C IG) as BG.
      destruct (String.eqb_spec m (fd_name f)) as [E|E].
      * rewrite <- E in F. rewrite G in F. injection F as ->.
        destruct (fd_type f) eqn:T; try (split; [exact L|reflexivity]).
        unfold fset_array. destruct (Nat.eqb_spec (length b) (fd_len f)) as [H|H]; [|split; [exact L|reflexivity]].
        cbn [po_data]. split; [rewrite fput_len; unfold bytes in *; lia|].
        apply fget_fput; unfold bytes in *; lia.
      * assert (A : (fd_off f + fd_len f <= fd_off g \/ fd_off g + fd_len g <= fd_off f)%nat)
          by (eapply table_apart; eauto; congruence).
        destruct (fd_type g) eqn:T; try (split; [exact L|reflexivity]).
        unfold fset_array. destruct (Nat.eqb_spec (length b) (fd_len g)) as [H|H]; [|split; [exact L|reflexivity]].
        cbn [po_data]. split; [rewrite fput_len; unfold bytes in *; lia|].
        apply fget_fput_off; unfold bytes in *; lia.
    + cbn [po_data]. split; [exact L|].
      destruct (String.eqb_spec m (fd_name f)) as [E|E]; [|reflexivity]. congruence.
Qed.

(** ** Array fields: after any sequence of attribute assignments, reading an array
    field gives what it was last given (of the right length), and exactly that is
    in the serialised packet. *)
Theorem C106_arrays : forall t n f o l,
  In (t, n) classes -> find_field (fd_name f) t = Some f -> fd_type f = TArray ->
  length (po_data o) = n ->
  let v := last_given (fd_name f) (fd_len f) l (fget (fd_off f) (fd_len f) (po_data o)) in
  attr_get t (attr_all t o l) (fd_name f) = Ok v /\
  firstn (fd_len f) (skipn (fd_off f) (po_data (attr_all t o l))) = v.
Proof.
  intros t n f o l C F T. revert o. induction l as [|[m v] l IH]; intros o L.
  - unfold attr_all, last_given. cbn [fold_left]. split; [|reflexivity].
    unfold attr_get. rewrite F, T. reflexivity.
  - unfold attr_all in *. cbn [fold_left last_given].
    destruct (attr_do_step t n o m v f C L F) as [L' G].
    specialize (IH (attr_do t o (m, v)) L'). cbn zeta in *. rewrite G, T in IH.
    destruct (String.eqb m (fd_name f)); [destruct v|]; exact IH.
Qed.
Print Assumptions C106_arrays.

(** ** Integer fields: reading one through the packet should give its value.  False:
    it gives that many zero bytes (so p.Time can be gigabytes long), and no value at
    all can be assigned. *)
Theorem C108_numbers_refuted : forall t n f o,
  In (t, n) classes -> find_field (fd_name f) t = Some f -> fd_type f = TNumber ->
  length (po_data o) = n ->
  attr_get t o (fd_name f) = Ok (repeat x00 (Z.to_nat (fget_int (fd_off f) (fd_len f) (po_data o)))) /\
  (forall v, exists e, attr_set t o (fd_name f) v = Err e /\ (e = TypeError \/ e = ValueError)) /\
  (forall l, fget_int (fd_off f) (fd_len f) (po_data (attr_all t o l)) = fget_int (fd_off f) (fd_len f) (po_data o)).
Proof.
  intros t n f o C F T L. split; [|split].
  - unfold attr_get. rewrite F, T. reflexivity.
  - intros [z|b]; unfold attr_set; cbn [cbytes].
    + destruct (z <? 0); eauto.
    + rewrite F, T. eauto.
  - intro l. revert o L. induction l as [|[m v] l IH]; intros o L; [reflexivity|].
    unfold attr_all in *. cbn [fold_left].
    destruct (attr_do_step t n o m v f C L F) as [L' G]. rewrite (IH _ L').
    unfold fget_int. rewrite G, T. destruct (String.eqb m (fd_name f)); [destruct v|]; reflexivity.
Qed.
Print Assumptions C108_numbers_refuted.

(** ** Other names: assigning an attribute that is no field should raise.  False: it is
    accepted for every name and value, reads back, and changes nothing that is
    sent. *)
Theorem C108_misspelt_refuted : forall t o n b,
  find_field n t = None -> ~ In n ordinary ->
  exists o', attr_set t o n (PBytes b) = Ok o' /\ attr_get t o' n = Ok b /\ po_data o' = po_data o.
Proof.
  intros t o n b F _. unfold attr_set. cbn [cbytes]. rewrite F. eexists. split; [reflexivity|]. split; [|reflexivity].
  unfold attr_get. rewrite F. cbn [po_extra assoc]. rewrite String.eqb_refl. reflexivity.
Qed.
Print Assumptions C108_misspelt_refuted.

(** The names of flags are among them, for every class. *)
Theorem C108_flags_misspelt_refuted : forall t n o b name,
  In (t, n) classes -> In name ["NoSuchServer"; "LastFlag"; "ServerSigKeyIncluded"; "PacketType"]%string ->
  exists o', attr_set t o name (PBytes b) = Ok o' /\ attr_get t o' name = Ok b /\ po_data o' = po_data o.
Proof.
  intros t n o b name C N. apply C108_misspelt_refuted.
  - assert (H : forallb (fun c => forallb (fun m => match find_field m (fst c) with None => true | _ => false end)
    ["NoSuchServer"; "LastFlag"; "ServerSigKeyIncluded"; "PacketType"]%string) classes = true) by (vm_compute; reflexivity).
    rewrite forallb_forall in H. specialize (H _ C). rewrite forallb_forall in H. specialize (H _ N). cbn [fst] in H.
    destruct (find_field name t); [discriminate|reflexivity].
  - assert (H : forallb (fun m => negb (existsb (String.eqb m) ordinary))
      ["NoSuchServer"; "LastFlag"; "ServerSigKeyIncluded"; "PacketType"]%string = true) by (vm_compute; reflexivity).
    rewrite forallb_forall in H. specialize (H _ N). intro I. apply negb_true_iff in H.
    assert (existsb (String.eqb name) ordinary = true) by (apply existsb_exists; exists name; split; [exact I|apply String.eqb_refl]).
    congruence.
Qed.
Print Assumptions C108_flags_misspelt_refuted.

(** An assignment to a field succeeds exactly for bytes of the length of an array field, and it
    says what is wrong otherwise: ValueError for a negative number, else TypeError for what is no
    bytes or no array field. *)
Theorem C106_refused : forall t n f o v, In (t, n) classes -> find_field (fd_name f) t = Some f -> length (po_data o) = n ->
  ((exists o', attr_set t o (fd_name f) v = Ok o') <-> exists b, v = PBytes b /\ fd_type f = TArray /\ length b = fd_len f) /\
  (forall z, v = PInt z -> attr_set t o (fd_name f) v = Err (if z <? 0 then ValueError else TypeError)) /\
  (forall b, v = PBytes b -> fd_type f <> TArray \/ length b <> fd_len f -> attr_set t o (fd_name f) v = Err TypeError).
Proof.
  intros t n f o v C F L. unfold attr_set. destruct v as [z|b]; cbn [cbytes].
  - split; [|split; [intros z' E; injection E as <-; destruct (z <? 0); reflexivity|discriminate]].
    split; [intros (o' & H); destruct (z <? 0); discriminate|intros (b & H & _); discriminate].
  - rewrite F. split; [|split; [discriminate|]].
    + split.
      * intros (o' & H). exists b. split; [reflexivity|]. destruct (fd_type f); try discriminate. split; [reflexivity|].
        unfold fset_array in H. destruct (Nat.eqb_spec (length b) (fd_len f)); [assumption|discriminate].
      * intros (b' & E & T & LB). injection E as <-. rewrite T. unfold fset_array. rewrite (proj2 (Nat.eqb_eq _ _) LB). eauto.
    + intros b' E [T|T]; injection E as <-; destruct (fd_type f); try reflexivity; try congruence.
      unfold fset_array. destruct (Nat.eqb_spec (length b) (fd_len f)); [contradiction|reflexivity].
Qed.
Print Assumptions C106_refused.

(** What a name that is no field was last given in bytes *)
Fixpoint last_bytes (n : string) (l : list (string * pyval)) (old : option bytes) : option bytes :=
  match l with
  | [] => old
  | (m, PBytes b) :: r => last_bytes n r (if String.eqb m n then Some b else old)
  | _ :: r => last_bytes n r old
  end.
(** Other names: AttributeError, unless the object was given something under the name. *)
Theorem C106_other_names : forall t n l d, find_field n t = None -> ~ In n ordinary ->
  attr_get t (attr_all t (PO d []) l) n = match last_bytes n l None with Some b => Ok b | None => Err AttributeError end.
Proof.
  intros t n l d F _.
  assert (G : forall l o old, assoc n (po_extra o) = old -> attr_get t (attr_all t o l) n = match last_bytes n l old with Some b => Ok b | None => Err AttributeError end).
  { clear l d. induction l as [|[m v] l IH]; intros o old HO; unfold attr_all in *; cbn [fold_left last_bytes].
    - unfold attr_get. rewrite F, HO. reflexivity.
    - destruct v as [z|b].
      + apply IH. unfold attr_do, attr_set. cbn [fst snd cbytes]. destruct (z <? 0); exact HO.
      + apply IH. unfold attr_do, attr_set. cbn [fst snd cbytes]. destruct (String.eqb_spec m n) as [->|NE].
        * rewrite F. cbn [po_extra assoc]. rewrite String.eqb_refl. reflexivity.
        * destruct (find_field m t) as [g|].
          -- destruct (fd_type g); try exact HO. destruct (fset_array _ _ _ _); exact HO.
          -- cbn [po_extra assoc]. destruct (String.eqb_spec n m); [congruence|exact HO]. }
  apply G. reflexivity.
Qed.
Print Assumptions C106_other_names.

(** The attribute accessors used by the rest of the model agree with these. *)
Theorem C106_accessors : forall p (d : bytes),
  attr_get M1_fields (PO (m1_data p) []) "ClientEncKey" = Ok (m1_client_enc_key p) /\
  (forall k, attr_set M1_fields (PO (m1_data p) []) "ClientEncKey" (PBytes k) =
     match m1_set_client_enc_key k p with Ok q => Ok (PO (m1_data q) []) | Err e => Err e end) /\
  attr_get M2_fields (PO d []) "ServerEncKey" = Ok (m2_server_enc_key d) /\
  (forall k, attr_set M2_fields (PO d []) "ServerEncKey" (PBytes k) =
     match m2_set_server_enc_key k d with Ok q => Ok (PO q []) | Err e => Err e end) /\
  attr_get M3_fields (PO d []) "ServerSigKey" = Ok (m34_sig_key d) /\
  attr_get M3_fields (PO d []) "Signature1" = Ok (m34_signature d) /\
  attr_get M4_fields (PO d []) "ClientSigKey" = Ok (m34_sig_key d) /\
  attr_get M4_fields (PO d []) "Signature2" = Ok (m34_signature d) /\
  attr_get M1_fields (PO (m1_data p) []) "Time" = Ok (repeat x00 (Z.to_nat (m1_time p))).
Proof.
  intros p d. repeat split; intros; unfold attr_set, m1_set_client_enc_key; cbn [cbytes find_field];
    try reflexivity; cbn; destruct (fset_array _ _ _ _); reflexivity.
Qed.
Print Assumptions C106_accessors.

(** Case: on an M2, the key is replaced, a bad key and an integer are refused, and
    "LastFlag" reads back as given although the flag is clear. *)
Example C106_case :
  let o := attr_all M2_fields (PO m2_new [])
    [("ServerEncKey", PBytes (repeat x41 32)); ("ServerEncKey", PBytes [x42]); ("Time", PInt 5);
     ("LastFlag", PBytes [x01])]%string in
  attr_get M2_fields o "ServerEncKey" = Ok (repeat x41 32) /\
  attr_get M2_fields o "LastFlag" = Ok [x01] /\ m2_last_flag (po_data o) = false /\
  attr_get M2_fields (PO (m2_set_time 3 m2_new) []) "Time" = Ok [x00; x00; x00].
Proof. vm_compute. repeat split; reflexivity. Qed.
