(** Model of the class attributes of [SaltLib] (saltchannel/saltlib/saltlib.py:24-61): the
    object the metaclass registers and the random generator.  Definitions only. *)
From Coq Require Import List ZArith Bool.
From Verif Require Import PyBase SaltLib.
Import ListNotations.
Open Scope Z_scope.

(** What [_rand] can be bound to, saltlib.py:35: os.urandom or the method [randombytes] of
    the back end in use. *)
Inductive source : Type := Urandom | Own (b : backend).

(** [Singleton._instances[SaltLib]] (util/__init__.py:21-26) and [SaltLib._rand]; [None]
    while there is no such entry or attribute.  The object is its attribute [api]. *)
Record salt_class : Type := SaltClass { sc_inst : option saltlib; sc_rand : option source }.
Definition salt_class_init : salt_class := SaltClass None None.

(** The expression [SaltLib(t, r)]: util/__init__.py:23-26, saltlib.py:33-35.
    [available] is what [isAvailable] of the back ends says at that moment. *)
Definition salt_new (available : backend -> bool) (t : lib_type) (r : rng) (c : salt_class) : salt_class * res saltlib :=
  match sc_inst c with
  | Some s => (c, Ok s)
  | None =>
      match salt_init available t r with
      | Err e => (c, Err e)
      | Ok s => (SaltClass (Some s) (Some (match r, s with RNG_IMPL, Some b => Own b | _, _ => Urandom end)), Ok s)
      end
  end.

(** [SaltLib.random_bytes], saltlib.py:49-51; where the bytes are drawn from *)
Definition random_source (c : salt_class) : res source :=
  match sc_rand c with Some g => Ok g | None => Err AttributeError end.

(** The constructions of a process, from its start *)
Record salt_call_args : Type := SaltArgs { sa_available : backend -> bool; sa_type : lib_type; sa_rng : rng }.
Fixpoint salt_news (c : salt_class) (l : list salt_call_args) : salt_class * list (res saltlib) :=
  match l with
  | [] => (c, [])
  | h :: t =>
      let (c1, x) := salt_new (sa_available h) (sa_type h) (sa_rng h) c in
      let (c2, xs) := salt_news c1 t in (c2, x :: xs)
  end.
