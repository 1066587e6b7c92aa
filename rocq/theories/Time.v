(** Time keepers and checkers: saltchannel/util/time.py and
    saltchannel/dev/example_session3.py.  Definitions only. *)
From Coq Require Import List ZArith Bool.
From Verif Require Import PyBase.
Import ListNotations.
Open Scope Z_scope.

(** A [TimeKeeper] (time.py:6-15): an object with integer state; each method
    returns its value and the new state.  Simplified: readings are ints. *)
Record tkeeper : Type := TKeeper {
  tk_first : Z -> Z * Z;   (* get_first_time: (value, new state) *)
  tk_get : Z -> Z * Z      (* get_time *)
}.

(** A [TimeChecker] (time.py:18-27).  Simplified: stateless (with state: Checked.v); the only checker in
    the repository (NullTimeChecker) is. *)
Record tchecker : Type := TChecker {
  tc_first : Z -> res unit;  (* report_first_time *)
  tc_check : Z -> res unit   (* check_time *)
}.

(** [NullTimeKeeper], time.py:30-41 *)
Definition null_keeper : tkeeper := TKeeper (fun s => (0, s)) (fun s => (0, s)).

(** [NullTimeChecker], time.py:44-53.  Line 50 builds the message with
    ["bad first time, " + time]; [str + int] raises TypeError before BadPeer can
    be raised. *)
Definition null_checker : tchecker :=
  TChecker (fun t => if (t =? 0) || (t =? 1) then Ok tt else Err TypeError)
           (fun _ => Ok tt).

(** [OneTwoThreeTimeKeeper], example_session3.py:25-35 *)
Definition one_two_three : tkeeper :=
  TKeeper (fun _ => (1, 1)) (fun s => (s + 1, s + 1)).

(** A history of calls to one keeper object ([true]: get_first_time, [false]:
    get_time) and the values returned. *)
Fixpoint tk_calls (K : tkeeper) (s : Z) (calls : list bool) : list Z :=
  match calls with
  | [] => []
  | c :: t => let (v, s') := (if c then tk_first K s else tk_get K s) in v :: tk_calls K s' t
  end.

(** The state [OneTwoThreeTimeKeeper.__init__] gives a new keeper, line 26-27. *)
Definition one_two_three_init : Z := 0.
