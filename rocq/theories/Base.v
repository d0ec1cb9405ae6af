(** Outcomes of partial C++ code. *)
Require Import List.
Import ListNotations.

(** A C++ call either returns ([Ok]), stops the program through an NS_ASSERT /
    NS_ABORT / fatal error ([Abort]), or has undefined behaviour ([UB]). The
    string-free constants below only name the reason. *)
Inductive why : Set :=
| NullDeref        (* dereference of a null Ptr<> or call of a null Callback *)
| OutOfRange       (* operator[] of a std::vector beyond its size *)
| DivByZero        (* integer % 0 *)
| IntOverflow      (* signed integer overflow *)
| Uninit           (* read of an uninitialised variable *)
| BadCast          (* StaticCast to a type the object does not have *)
| AssertFailed     (* NS_ASSERT / NS_ASSERT_MSG, unless one of the next three *)
| AssertTx         (* the transmit state assertions of MockNetDevice *)
| AssertPadding    (* the padding assertions of MockNetDevice::Receive *)
| AssertSides      (* LeoMockChannel: a source both on ground and in space *)
| NegativeDelay    (* an event scheduled in the past *)
| ShortPacket      (* ns-3 packet operation beyond the end of the packet *)
| BadAddress.      (* Mac48Address::ConvertFrom of something else *)

Inductive res (A : Type) : Type :=
| Ok (a : A)
| Abort (w : why)
| UB (w : why).
Arguments Ok {A} a.
Arguments Abort {A} w.
Arguments UB {A} w.

Definition bind {A B : Type} (x : res A) (f : A -> res B) : res B :=
  match x with
  | Ok a => f a
  | Abort w => Abort w
  | UB w => UB w
  end.

Declare Scope res_scope.
Delimit Scope res_scope with res.
Notation "'let*' x ':=' e1 'in' e2" := (bind e1 (fun x => e2))
  (at level 61, x pattern, e1 at next level, right associativity) : res_scope.

Definition is_ok {A : Type} (x : res A) : bool :=
  match x with Ok _ => true | _ => false end.
