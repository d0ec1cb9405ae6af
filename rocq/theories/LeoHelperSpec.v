(** What LeoHelper should make: the networks, their settings and the ARP entries. *)
Require Import ZArith List Bool.
Require Import Verif.Base Verif.Num Verif.Vec Verif.NetModel Verif.HelperModel Verif.CacheModel Verif.LeoHelperModel.
Import ListNotations.
Local Open Scope Z_scope.

(** ** Settings *)

(** The five groups of devices. *)
Inductive role : Type := InterSatellite | GatewaySatellite | Gateway | TerminalSatellite | Terminal.

(** Which queue and which attribute a call sets for a group. *)
Definition queue_set {N : Num} (r : role) (c : stack_call N) : option queue_rule :=
  match c, r with
  | KQueue q, (GatewaySatellite | Gateway | TerminalSatellite | Terminal) => Some q
  | KGndGwQueue q, Gateway => Some q
  | KGndUtQueue q, Terminal => Some q
  | KSatGwQueue q, GatewaySatellite => Some q
  | KSatUtQueue q, TerminalSatellite => Some q
  | _, _ => None
  end.
Definition attr_set {N : Num} (r : role) (c : stack_call N) : option (attr N) :=
  match c, r with
  | KDevice a, _ => Some a
  | KGndGwDevice a, Gateway => Some a
  | KGndUtDevice a, Terminal => Some a
  | KSatUtDevice a, TerminalSatellite => Some a
  | KSatGwDevice a, GatewaySatellite => Some a
  | KIslDevice a, InterSatellite => Some a
  | _, _ => None
  end.

(** The last value that a function finds in a list. *)
Definition last_of {A B : Type} (f : A -> option B) (l : list A) (default : B) : B :=
  fold_left (fun v a => match f a with Some x => x | None => v end) l default.
Definition of_attr {N : Num} {B : Type} (r : role) (f : attr N -> option B) (c : stack_call N) : option B :=
  match attr_set r c with Some a => f a | None => None end.

(** A device of group [r] after the calls [calls] and an installation: each value is
    the last one that was set for the group, or the default. *)
Definition configured {N : Num} (calls : list (stack_call N)) (r : role) (y : dev N) : Prop :=
  d_queue y = Some (last_of (queue_set r) calls (fun q _ => (List.length q <? 100)%nat)) /\
  g_bps (d_cfg y) = last_of (of_attr r (fun a => match a with ARate x => Some x | _ => None end)) calls 32768 /\
  g_gap (d_cfg y) = last_of (of_attr r (fun a => match a with AGap x => Some x | _ => None end)) calls 0 /\
  g_thr (d_cfg y) = last_of (of_attr r (fun a => match a with AThreshold x => Some x | _ => None end)) calls (nZ N (-1000)) /\
  g_txp (d_cfg y) = last_of (of_attr r (fun a => match a with ATxPower x => Some x | _ => None end)) calls (nZ N 1) /\
  g_gain (d_cfg y) = last_of (of_attr r (fun a => match a with ARxGain x => Some x | _ => None end)) calls (nZ N 0) /\
  g_loss (d_cfg y) = last_of (of_attr r (fun a => match a with ARxLoss x => Some x | _ => None end)) calls (nZ N 0) /\
  g_err (d_cfg y) = last_of (of_attr r (fun a => match a with AErrorModel x => Some x | _ => None end)) calls None.
(** The type of a LEO device. *)
Definition type_of {N : Num} (calls : list (stack_call N)) (r : role) (default : bool) : dkind :=
  if last_of (of_attr r (fun a => match a with AType x => Some x | _ => None end)) calls default then Sat else Gnd.

(** The attributes that an inter-satellite device does not have, and the calls that
    would set them on it. *)
Definition refused {N : Num} (c : stack_call N) : Prop :=
  match c with
  | KDevice (AType _) | KDevice (ARxGain _) | KDevice (ARxLoss _)
  | KIslDevice (AType _) | KIslDevice (ARxGain _) | KIslDevice (ARxLoss _) => True
  | _ => False
  end.

(** The models of the inter-satellite channel. *)
Definition isl_loss_set {N : Num} (c : stack_call N) : option (option (num N -> nat -> nat -> Z -> num N)) :=
  match c with KChannel (ALoss f) | KIslChannel (ALoss f) => Some f | _ => None end.
Definition isl_delay_set {N : Num} (c : stack_call N) : option (option (nat -> nat -> Z -> Z)) :=
  match c with KChannel (ADelay f) | KIslChannel (ADelay f) => Some f | _ => None end.

(** ** Networks *)

(** The device [x]: on node [node], with address [a] and of kind [k], attached to
    channel [c] as number [i]. *)
Definition set_up {N : Num} (w : world N) (x node : nat) (a : Z) (k : dkind) (c i : nat) : Prop :=
  let y := w_dev w x in
  g_node (d_cfg y) = Some node /\ g_addr (d_cfg y) = a /\ g_kind (d_cfg y) = k /\ g_rxcb (d_cfg y) = true /\
  d_q y = [] /\ d_chan y = Some c /\ d_id y = i /\ d_up y = true.

(** A LEO channel [c] with [n] satellites and [m] ground devices, numbered from [d]
    and with addresses from [a]. *)
Definition star {N : Num} (w : world N) (c d n m : nat) (a : Z) : Prop :=
  c_kind (w_chan w c) = LeoChannel /\ c_link (w_chan w c) = seq d (n + m) /\
  (forall b x, In (b, x) (c_sat (w_chan w c)) <-> exists i, (i < n)%nat /\ b = a + Z.of_nat i /\ x = (d + i)%nat) /\
  (forall b x, In (b, x) (c_gnd (w_chan w c)) <-> exists i, (n <= i < n + m)%nat /\ b = a + Z.of_nat i /\ x = (d + i)%nat).

Definition networks {N : Num} (w : world N) (c d : nat) (id : Z) (sats gws uts : list nat) : Prop :=
  let n := List.length sats in
  let g := List.length gws in
  let u := List.length uts in
  let d2 := (d + n)%nat in
  let d3 := (d + n + n + g)%nat in
  (forall i node, nth_error sats i = Some node -> set_up w (d + i) node (id + 1 + Z.of_nat i) Plain c i) /\
  (forall i node, nth_error sats i = Some node -> set_up w (d2 + i) node (id + 1 + Z.of_nat (n + i)) Sat (S c) i) /\
  (forall i node, nth_error gws i = Some node -> set_up w (d2 + n + i) node (id + 1 + Z.of_nat (n + n + i)) Gnd (S c) (n + i)) /\
  (forall i node, nth_error sats i = Some node -> set_up w (d3 + i) node (id + 1 + Z.of_nat (n + n + g + i)) Sat (S (S c)) i) /\
  (forall i node, nth_error uts i = Some node -> set_up w (d3 + n + i) node (id + 1 + Z.of_nat (n + n + g + n + i)) Gnd (S (S c)) (n + i)) /\
  c_kind (w_chan w c) = IslChannel /\ c_link (w_chan w c) = seq d n /\
  star w (S c) d2 n g (id + 1 + Z.of_nat n) /\ star w (S (S c)) d3 n u (id + 1 + Z.of_nat (n + n + g)).

(** A device number is one of [m] from [d]. *)
Definition among (x d m : nat) : Prop := (d <= x < d + m)%nat.

(** ** ARP entries *)

(** The caches [first], [first + 1], ... ([count] of them) map [x] to [m]. *)
Definition primed (s : caches) (first count : nat) (x m : Z) : caches :=
  fun c y => if ((first <=? c)%nat && (c <? first + count)%nat && (y =? x))%bool then Some m else s c y.
