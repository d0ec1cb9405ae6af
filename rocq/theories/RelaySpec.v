(** Packets relayed from device to device by static routes. *)
Require Import ZArith List Bool.
Require Import Verif.Base Verif.Num Verif.FrameModel Verif.NetModel Verif.NetSpec Verif.NetRunSpec Verif.ReactModel.
Import ListNotations.
Local Open Scope Z_scope.

(** Static routes: what comes in at a device goes out at the device and to the address
    that the table gives; where there is no entry, the packet has arrived. (The uid of
    the packet that is sent on is [uid].) *)
Definition route (next : nat -> option (nat * Z)) (uid : Z) (l : trace) : list sending :=
  match rev l with
  | (_, RxCallback d src payload q from to own) :: _ =>
      match next d with Some (e, a) => [(e, mkPkt uid payload, Mac a, q)] | None => [] end
  | _ => []
  end.

(** A hop: from a device over a channel to a device. *)
Record hop : Type := mkHop { h_from : nat; h_over : nat; h_to : nat }.

Section Relay.
  Context {N : Num}.
  Variable crc : list Z -> Z.
  Variable fcs : bool.
  Variable tx_time : Z -> Z -> Z.
  Variable has_mob : nat -> bool.
  Variable w : world N.
  Variables (payload : list Z) (q uid : Z).

  Definition hop_frame (h : hop) : pkt := frame_of crc fcs (mkPkt uid payload) (addr_of w (h_to h)) q (addr_of w (h_from h)).
  Definition hop_tx (h : hop) : Z := tx_time (g_bps (d_cfg (w_dev w (h_from h)))) (Z.of_nat (length (p_bytes (hop_frame h)))).
  (** Delay of the link at time t. *)
  Definition hop_delay (t : Z) (h : hop) : Z := delay_to has_mob (set_now w t) (h_over h) (h_from h) (h_to h) (hop_tx h).

  (** Where the packet is handed to the protocols, and when. *)
  Fixpoint arrivals (t : Z) (path : list hop) : trace :=
    match path with
    | [] => []
    | h :: r =>
        let t' := t + hop_delay t h in
        (t', RxCallback (h_to h) (h_from h) payload q (addr_of w (h_from h)) (addr_of w (h_to h)) (addr_of w (h_to h)))
          :: arrivals t' r
    end.

  (** The routes follow the path. *)
  Fixpoint routed (next : nat -> option (nat * Z)) (path : list hop) : Prop :=
    match path with
    | [] => True
    | h :: r => next (h_to h) = match r with [] => None | h2 :: _ => Some (h_from h2, addr_of w (h_to h2)) end /\ routed next r
    end.

  (** A hop that works at time t: the sender is attached, up and admits the packet; the
      receiver has a unicast address of its own among those that get the signal, and hears
      what is sent at time t. *)
  Definition usable (t : Z) (h : hop) : Prop :=
    let a := h_from h in let b := h_to h in let c := h_over h in
    let g := d_cfg (w_dev w b) in
    let v := set_now w t in
    a <> b /\
    (d_chan (w_dev w a) = Some c /\ nth_error (c_link (w_chan w c)) (d_id (w_dev w a)) = Some a /\ d_up (w_dev w a) = true) /\
    (exists admit, d_queue (w_dev w a) = Some admit /\ admit [] (hop_frame h) = true) /\
    0 <= hop_tx h + g_gap (d_cfg (w_dev w a)) /\
    (0 <= addr_of w a < 2 ^ 48 /\ 0 <= addr_of w b < 2 ^ 48 /\ addr_of w b <> 2 ^ 48 - 1 /\ Z.testbit (addr_of w b) 40 = false) /\
    recipient w c a (addr_of w b) b /\
    (forall x, recipient w c a (addr_of w b) x -> node_of w x <> None /\ (x = b \/ addr_of w x <> addr_of w b) /\
       0 <= delay_to has_mob v c a x (hop_tx h)) /\
    (c_kind (w_chan w c) = LeoChannel -> NoDup (map snd (c_gnd (w_chan w c))) /\ NoDup (map snd (c_sat (w_chan w c)))) /\
    hears has_mob v c a b = true /\
    nlt N (effective_power g (power_at has_mob v c a b)) (g_thr g) = false /\
    (forall f, g_err g = Some f -> f (t + hop_delay t h) (hop_frame h) = false) /\ g_rxcb g = true.

  (** Every hop works when the packet gets there. *)
  Fixpoint passable (t : Z) (path : list hop) : Prop :=
    match path with
    | [] => True
    | h :: r => usable t h /\ passable (t + hop_delay t h) r
    end.
End Relay.

(** Packets handed to the protocols. *)
Definition handed (l : trace) : trace :=
  filter (fun x => match snd x with RxCallback _ _ _ _ _ _ _ => true | _ => false end) l.
