(** What the channel helpers should configure, as tables independent of the
    helpers' code: the link budgets documented in leo-starlink-constants.h and
    leo-telesat-constants.h (decimal values: digits and number of decimals). *)
Require Import ZArith List Bool String.
Require Import Verif.Base Verif.Num Verif.Vec Verif.LossModel Verif.FrameModel Verif.NetModel Verif.HelperModel.
Import ListNotations.
Local Open Scope Z_scope.

Record preset : Type := mkPreset {
  ps_name : string;
  ps_eirp : Z;              (* 1/10 dBm *)
  ps_elevation : Z;         (* degrees *)
  ps_fspl : Z;              (* 1/10 dB *)
  ps_atmospheric : Z * positive;
  ps_margin : Z;            (* 1/100 dB *)
  ps_rate : Z;              (* bit/s *)
  ps_gain : Z               (* 1/10 dBi *)
}.
Definition published : list preset :=
  [ mkPreset "StarlinkGateway" 984 40 1861 (29, 1%positive) 102 2682100000 409;
    mkPreset "StarlinkUser" 667 40 1796 (53, 2%positive) 82 674300000 377;
    mkPreset "TelesatGateway" 1059 20 1893 (48, 1%positive) 36 9857100000 318;
    mkPreset "TelesatUser" 646 55 1786 (41, 2%positive) 76 599400000 383 ].

(** The loss model of a link class, and the one without any. *)
Definition preset_loss {N : Num} (p : preset) : leoloss N :=
  mkLeoLoss (SetElevationAngle (N := N) (nZ N (ps_elevation p)))
            (ndec N (fst (ps_atmospheric p)) (snd (ps_atmospheric p)))
            (ndec N (ps_fspl p) 1) (ndec N (ps_margin p) 2).
Definition default_loss {N : Num} : leoloss N :=
  mkLeoLoss (SetElevationAngle (N := N) (nZ N 40)) (nZ N 0) (nZ N 0) (nZ N 0).

(** The last link class chosen in a sequence of helper calls. *)
Fixpoint chosen {N : Num} (l : list (leo_call N)) : option string :=
  match l with
  | [] => None
  | HConstellation name :: r => match chosen r with Some n => Some n | None => Some name end
  | _ :: r => chosen r
  end.
Definition chosen_loss {N : Num} (l : list (leo_call N)) (m : leoloss N) : Prop :=
  match chosen l with
  | None => m = default_loss
  | Some name => exists p, In p published /\ ps_name p = name /\ m = preset_loss p
  end.

(** The last loss and delay models set in a sequence of channel attributes. *)
Fixpoint last_loss {N : Num} (l : list (cattr N)) (f : option (num N -> nat -> nat -> Z -> num N)) :=
  match l with
  | [] => f
  | ALoss g :: r => last_loss r g
  | ADelay _ :: r => last_loss r f
  end.
Fixpoint last_delay {N : Num} (l : list (cattr N)) (f : option (nat -> nat -> Z -> Z)) :=
  match l with
  | [] => f
  | ADelay g :: r => last_delay r g
  | ALoss _ :: r => last_delay r f
  end.
Definition isl_channel_attributes {N : Num} (l : list (isl_call N)) : list (cattr N) :=
  flat_map (fun c => match c with HIslChannelAttribute a => [a] | _ => [] end) l.

(** Attribute values with which a device works: a positive rate, a gap that is not
    negative; a delay model without negative delays. *)
Definition sane {N : Num} (a : attr N) : Prop :=
  match a with ARate bps => 0 < bps | AGap t => 0 <= t | _ => True end.
Definition sane_leo_call {N : Num} (c : leo_call N) : Prop :=
  match c with HGndAttribute a | HSatAttribute a => sane a | _ => True end.
Definition sane_isl_call {N : Num} (c : isl_call N) : Prop :=
  match c with
  | HDeviceAttribute a => sane a
  | HIslChannelAttribute (ADelay (Some f)) => forall a b t, 0 <= f a b t
  | _ => True
  end.

(** A LEO helper's user leaves the device types alone. *)
Definition keeps_types {N : Num} (c : leo_call N) : Prop :=
  match c with HGndAttribute (AType _) | HSatAttribute (AType _) => False | _ => True end.

(** Packets that fit into a frame, and ordinary operations: sends to a MAC address
    and simulator events. *)
Definition ordinary {N : Num} (o : op N) : Prop :=
  match o with
  | OSend _ p (Mac a) q => 0 <= a < 2 ^ 48 /\ 0 <= q < 2 ^ 16 /\ Z.of_nat (List.length (p_bytes p)) <= 65527
  | OAdvance _ | ORun => True
  | _ => False
  end.

(** Programs: installations by helpers that were configured sanely, with ordinary
    operations in between. *)
Definition sane_act {N : Num} pos seconds (a : act N) : Prop :=
  match a with
  | ALeoInstall h _ _ => exists calls, leo_helper_calls (new_leo_helper pos seconds) calls = Ok h /\ Forall sane_leo_call calls
  | AIslInstall h _ => exists calls, isl_helper_calls (new_isl_helper pos seconds) calls = Ok h /\ Forall sane_isl_call calls
  | AOp o => ordinary o
  end.
(** Number of devices installed. *)
Fixpoint devices {N : Num} (l : list (act N)) : Z :=
  match l with
  | [] => 0
  | ALeoInstall _ sats gnds :: r => Z.of_nat (List.length sats) + Z.of_nat (List.length gnds) + devices r
  | AIslInstall _ nodes :: r => Z.of_nat (List.length nodes) + devices r
  | AOp _ :: r => devices r
  end.
