(** C83: what is received was heard; what is heard arrives, also in doubles. *)
Require Import ZArith Reals Lra Lia List Bool.
From Flocq Require Import Core.Core IEEE754.BinarySingleNaN.
Require Import Verif.Base Verif.Num Verif.NumR Verif.Num64 Verif.Vec Verif.OrbitModel Verif.MobilityModel Verif.AllocModel
  Verif.LossModel Verif.FrameModel Verif.NetModel Verif.HelperModel
  Verif.GeomSpec Verif.OrbitSpec Verif.MobilitySpec Verif.AllocSpec Verif.LossSpec Verif.NetSpec Verif.NetRunSpec Verif.HeardSpec Verif.Float64Spec Verif.ConstellationSpec Verif.Link64Spec
  Verif.LossProofs Verif.LeoLossProofs Verif.LossApiProofs Verif.OrbitProofs Verif.OrbitApiProofs Verif.AllocProofs Verif.AllocApiProofs Verif.Alloc64Proofs
  Verif.Loss64Proofs Verif.Float64Proofs Verif.Orbit64Proofs Verif.Orbit64Api Verif.Los64Proofs Verif.Leo64Proofs Verif.ConstellationProofs Verif.Read64Proofs Verif.PropFloat Verif.NetExamples Verif.NetDrainProofs Verif.HelperSafeProofs Verif.NetSteps Verif.NetHeardProofs
  Verif.TracingProofs Verif.PropLos64 Verif.PropLeo64 Verif.PropRun Verif.PropConstellation Verif.PropGround64.
Import ListNotations.
Local Open Scope R_scope.

(** ** C83 *)

(** In every execution from a world without pending events, whatever reaches a receive callback was
    handed by its sender to the sender's channel, over a link to the receiver that was open at that
    time, one link delay earlier; and the receiver checked it. *)
Theorem C83_received_only_if_heard : forall (N : Num) crc fcs tx_time has_mob (start : world N) ops w new T dst src payload q from to own,
  reachable crc fcs tx_time has_mob start -> w_events start = [] -> run crc fcs tx_time has_mob start ops = Ok w -> w_log w = w_log start ++ new ->
  In (T, RxCallback dst src payload q from to own) new ->
  exists ops1 ops2 w0 p power, ops = ops1 ++ ORun :: ops2 /\ run crc fcs tx_time has_mob start ops1 = Ok w0 /\
    origin crc fcs tx_time has_mob start ops1 T dst src p power /\ accepted crc fcs w0 T dst src payload q from to own p power.
Proof. intros. eapply received_origin; eassumption. Qed.
Print Assumptions C83_received_only_if_heard.

(** Traffic over an installed constellation, whatever is sent and however long it takes: over an
    inter-satellite link nothing arrives that was not sent while the line between the reported
    positions was clear of the Earth. *)
Theorem C83_isl_receptions : forall (junk : point) precision os pos crc fcs tx_time has_mob seconds v (w0 : world NumR) ops w new T dst src payload q from to own c a b oa psa ob psb,
  Forall (fun o : leoorbit NumR => u16 (lo_planes o) /\ u16 (lo_sats o)) os ->
  satellite junk precision os (pos a) oa psa -> satellite junk precision os (pos b) ob psb -> 0 <= lo_alt oa -> 0 <= lo_alt ob ->
  reachable crc fcs tx_time has_mob w0 -> w_events w0 = [] -> (0 <= w_now w0)%Z ->
  node_of w0 src = Some a -> node_of w0 dst = Some b -> has_mob a = true -> has_mob b = true -> d_chan (w_dev w0 src) = Some c ->
  c_loss (w_chan w0 c) = Some (isl_loss pos) -> c_delay (w_chan w0 c) = Some (constant_speed pos seconds v) -> -900 <= g_txp (d_cfg (w_dev w0 src)) ->
  Forall traffic ops -> run crc fcs tx_time has_mob w0 ops = Ok w -> w_log w = w_log w0 ++ new ->
  In (T, RxCallback dst src payload q from to own) new ->
  exists t ta tb, (w_now w0 <= t <= w_now w)%Z /\ refreshed precision t ta /\ refreshed precision t tb /\
    let P := sat_path oa psa ta in let Q := sat_path ob psb tb in
    T = (t + seconds (distance P Q / v)%R)%Z /\
    (P <> Q -> unobstructed isl_earth_radius P Q /\ effective_power (d_cfg (w_dev w0 dst)) (g_txp (d_cfg (w_dev w0 src))) >= g_thr (d_cfg (w_dev w0 dst))).
Proof.
  intros junk prec os pos crc fcs tx_time has_mob seconds v w0 ops w new T dst src payload q from to own c a b oa psa ob psb
    Hu Sa Sb Aa Ab R E0 T0 Na Nb Ma Mb HC HL HD HP F RUN LG HI.
  destruct (traffic_origin crc fcs tx_time has_mob w0 ops w new R E0 F RUN LG T dst src payload q from to own c HI HC)
    as (w1 & dest & tx & [KC KD] & TT & _ & _ & HH & -> & _ & PW).
  destruct (KD src) as [Gs _]. destruct (KD dst) as [Gd _].
  assert (Na1 : node_of w1 src = Some a) by (unfold node_of in *; rewrite Gs; exact Na).
  assert (Nb1 : node_of w1 dst = Some b) by (unfold node_of in *; rewrite Gd; exact Nb).
  rewrite <- KC in HL, HD. rewrite <- Gs in HP.
  destruct (C80_isl_hears junk prec os pos has_mob seconds v w1 c src dst a b oa psa ob psb Hu Sa Sb Aa Ab Na1 Nb1 Ma Mb HL HD HP ltac:(lia))
    as (ta & tb & Ra & Rb & DL & X).
  exists (w_now w1), ta, tb. split; [exact TT|]. split; [exact Ra|]. split; [exact Rb|]. cbv zeta. split; [rewrite (DL tx); reflexivity|].
  intros NE. destruct (X NE) as [X1 X2]. split; [apply X1, HH|]. rewrite (X2 HH), Gs in PW. apply Rltb_false in PW. lra.
Qed.
Print Assumptions C83_isl_receptions.

(** Over a ground link nothing arrives that was not sent while the satellite stood above the mask. *)
Theorem C83_ground_receptions : forall (junk : point) precision os pos crc fcs tx_time has_mob seconds v e atm fspl margin (w0 : world NumR) ops w new T dst src payload q from to own c a b s o ps (g : point),
  Forall (fun o : leoorbit NumR => u16 (lo_planes o) /\ u16 (lo_sats o)) os ->
  satellite junk precision os (pos s) o ps -> leo_earth_radius < 1000 * (earth_radius_km + lo_alt o) ->
  0 < norm g <= leo_earth_radius ->
  (a = s /\ forall t, pos b t = g) \/ (b = s /\ forall t, pos a t = g) ->
  reachable crc fcs tx_time has_mob w0 -> w_events w0 = [] -> (0 <= w_now w0)%Z ->
  node_of w0 src = Some a -> node_of w0 dst = Some b -> has_mob a = true -> has_mob b = true -> d_chan (w_dev w0 src) = Some c ->
  c_loss (w_chan w0 c) = Some (leo_loss pos (leo_model e atm fspl margin)) -> c_delay (w_chan w0 c) = Some (constant_speed pos seconds v) ->
  0 <= e < 90 -> -900 <= g_txp (d_cfg (w_dev w0 src)) - atm - fspl - margin ->
  Forall traffic ops -> run crc fcs tx_time has_mob w0 ops = Ok w -> w_log w = w_log w0 ++ new ->
  In (T, RxCallback dst src payload q from to own) new ->
  exists t tau, (w_now w0 <= t <= w_now w)%Z /\ refreshed precision t tau /\
    let P := sat_path o ps tau in
    T = (t + seconds (distance g P / v)%R)%Z /\ radians e <= elevation g P /\
    distance g P <= slant_range leo_earth_radius (1000 * (earth_radius_km + lo_alt o)) (radians e) /\
    effective_power (d_cfg (w_dev w0 dst)) (g_txp (d_cfg (w_dev w0 src)) - atm - fspl - margin) >= g_thr (d_cfg (w_dev w0 dst)).
Proof.
  intros junk prec os pos crc fcs tx_time has_mob seconds v e atm fspl margin w0 ops w new T dst src payload q from to own c a b s o ps g
    Hu S HH Hg AB R E0 T0 Na Nb Ma Mb HC HL HD He HP F RUN LG HI.
  destruct (traffic_origin crc fcs tx_time has_mob w0 ops w new R E0 F RUN LG T dst src payload q from to own c HI HC)
    as (w1 & dest & tx & [KC KD] & TT & _ & _ & HE & -> & _ & PW).
  destruct (KD src) as [Gs _]. destruct (KD dst) as [Gd _].
  assert (Na1 : node_of w1 src = Some a) by (unfold node_of in *; rewrite Gs; exact Na).
  assert (Nb1 : node_of w1 dst = Some b) by (unfold node_of in *; rewrite Gd; exact Nb).
  rewrite <- KC in HL, HD. rewrite <- Gs in HP.
  assert (AB1 : (a = s /\ pos b (w_now w1) = g) \/ (b = s /\ pos a (w_now w1) = g)) by (destruct AB as [[A B]|[A B]]; auto).
  destruct (C80_ground_hears junk prec os pos has_mob seconds v e atm fspl margin w1 c src dst a b s o ps g Hu S HH Hg AB1 Na1 Nb1 Ma Mb HL HD He HP ltac:(lia))
    as (tau & RF & DL & X1 & X2).
  exists (w_now w1), tau. split; [exact TT|]. split; [exact RF|]. cbv zeta. split; [rewrite (DL tx); reflexivity|].
  destruct (X2 HE) as [X3 X4]. split; [exact X3|]. split; [apply X1, HE|]. rewrite X4, Gs in PW. apply Rltb_false in PW. lra.
Qed.
Print Assumptions C83_ground_receptions.

(** The same with everything computed in doubles. *)
Theorem C83_isl_receptions_binary64 : forall fsin fcos ftan, accurate fsin fcos ->
  forall (junk : vec (Num64 fsin fcos ftan)) precision os pos crc fcs tx_time has_mob seconds v (w0 : world (Num64 fsin fcos ftan)) ops w new T dst src payload q from to own c a b oa psa ob psb (n : R),
  Forall (fun o : leoorbit (Num64 fsin fcos ftan) => u16 (lo_planes o) /\ u16 (lo_sats o)) os ->
  satellite junk precision os (pos a) oa psa -> satellite junk precision os (pos b) ob psb -> sane_orbit oa -> sane_orbit ob ->
  / 1000 <= B2R (lo_alt oa : b64) -> / 1000 <= B2R (lo_alt ob : b64) ->
  reachable crc fcs tx_time has_mob w0 -> w_events w0 = [] -> (0 <= w_now w0)%Z ->
  node_of w0 src = Some a -> node_of w0 dst = Some b -> has_mob a = true -> has_mob b = true -> d_chan (w_dev w0 src) = Some c ->
  c_loss (w_chan w0 c) = Some (isl_loss pos) -> c_delay (w_chan w0 c) = Some (constant_speed pos seconds (b64_Z v : num (Num64 fsin fcos ftan))) -> (1 <= v <= 1000000000)%Z ->
  is_finite (g_txp (d_cfg (w_dev w0 src)) : b64) = true -> -900 <= B2R (g_txp (d_cfg (w_dev w0 src)) : b64) ->
  Forall traffic ops -> run crc fcs tx_time has_mob w0 ops = Ok w -> w_log w = w_log w0 ++ new ->
  1 <= n <= 100000 -> IZR (w_now w) <= n * 86400000000000 ->
  In (T, RxCallback dst src payload q from to own) new ->
  exists t ta tb, (w_now w0 <= t <= w_now w)%Z /\ refreshed precision t ta /\ refreshed precision t tb /\
    let P := sat_path64 oa psa (sec ta) in let Q := sat_path64 ob psb (sec tb) in
    let h := earth_radius_km + Rmax (B2R (lo_alt oa : b64)) (B2R (lo_alt ob : b64)) in
    h / 500 <= distance P Q ->
    unobstructed (isl_earth_radius - h / 500) P Q /\
    exists x : b64, T = (t + seconds x)%Z /\ is_finite x = true /\ Rabs (B2R x - distance P Q / IZR v) <= h * n / 100000000 / IZR v.
Proof.
  intros fsin fcos ftan ACC junk prec os pos crc fcs tx_time has_mob seconds v w0 ops w new T dst src payload q from to own c a b oa psa ob psb n
    Hu Sa Sb Oa Ob Aa Ab R E0 T0 Na Nb Ma Mb HC HL HD Hv FP HP F RUN LG Hn HT HI.
  destruct (traffic_origin crc fcs tx_time has_mob w0 ops w new R E0 F RUN LG T dst src payload q from to own c HI HC)
    as (w1 & dest & tx & [KC KD] & TT & _ & _ & HH & -> & _ & PW).
  destruct (KD src) as [Gs _]. destruct (KD dst) as [Gd _].
  assert (Na1 : node_of w1 src = Some a) by (unfold node_of in *; rewrite Gs; exact Na).
  assert (Nb1 : node_of w1 dst = Some b) by (unfold node_of in *; rewrite Gd; exact Nb).
  rewrite <- KC in HL, HD. rewrite <- Gs in FP, HP.
  assert (HT1 : IZR (w_now w1) <= n * 86400000000000) by (apply Rle_trans with (2 := HT), IZR_le; lia).
  destruct (C82_isl_hears_binary64 fsin fcos ftan ACC junk prec os pos has_mob seconds v w1 c src dst a b oa psa ob psb n Hu Sa Sb Oa Ob Aa Ab Na1 Nb1 Ma Mb HL HD Hv FP HP Hn ltac:(lia) HT1)
    as (ta & tb & Ra & Rb & X).
  exists (w_now w1), ta, tb. split; [exact TT|]. split; [exact Ra|]. split; [exact Rb|]. cbv zeta. intros FAR.
  destruct (X FAR) as (_ & X2 & x & X3 & X4 & X5). split.
  - intros k Hk. match goal with |- ?x < ?y => destruct (Rlt_dec x y) as [L|L]; [exact L|exfalso] end.
    assert (hears has_mob w1 c src dst = false) by (apply X2; intros U; apply L, U, Hk). congruence.
  - exists x. split; [rewrite (X3 tx); reflexivity|]. split; assumption.
Qed.
Print Assumptions C83_isl_receptions_binary64.

Theorem C83_ground_receptions_binary64 : forall fsin fcos ftan, accurate fsin fcos -> accurate_tan ftan ->
  forall (junk : vec (Num64 fsin fcos ftan)) precision os pos crc fcs tx_time has_mob seconds v (w0 : world (Num64 fsin fcos ftan)) ops w new T dst src payload q from to own c a b s o ps g G (e atm fspl margin : b64) (n : R),
  Forall (fun o : leoorbit (Num64 fsin fcos ftan) => u16 (lo_planes o) /\ u16 (lo_sats o)) os ->
  satellite junk precision os (pos s) o ps -> sane_orbit o -> 101 <= B2R (lo_alt o : b64) ->
  ground_station g G -> (a = s /\ forall t, pos b t = g) \/ (b = s /\ forall t, pos a t = g) ->
  reachable crc fcs tx_time has_mob w0 -> w_events w0 = [] -> (0 <= w_now w0)%Z ->
  node_of w0 src = Some a -> node_of w0 dst = Some b -> has_mob a = true -> has_mob b = true -> d_chan (w_dev w0 src) = Some c ->
  c_loss (w_chan w0 c) = Some (leo_loss pos (mkLeoLoss (SetElevationAngle (N := Num64 fsin fcos ftan) e) atm fspl margin)) ->
  c_delay (w_chan w0 c) = Some (constant_speed pos seconds (b64_Z v : num (Num64 fsin fcos ftan))) -> (1 <= v <= 1000000000)%Z ->
  is_finite e = true -> 0 <= B2R e <= 89 ->
  let budget := b64_minus (b64_minus (b64_minus (g_txp (d_cfg (w_dev w0 src))) atm) fspl) margin in
  is_finite budget = true -> -900 <= B2R budget ->
  Forall traffic ops -> run crc fcs tx_time has_mob w0 ops = Ok w -> w_log w = w_log w0 ++ new ->
  1 <= n <= 100000 -> IZR (w_now w) <= n * 86400000000000 ->
  In (T, RxCallback dst src payload q from to own) new ->
  exists t tau, (w_now w0 <= t <= w_now w)%Z /\ refreshed precision t tau /\
    let P := sat_path64 o ps (sec tau) in
    let H := 1000 * (earth_radius_km + B2R (lo_alt o : b64)) in
    distance G P < slant_range leo_earth_radius H (radians (B2R e)) + H * (/ 50000000 + n / 100000000000) /\
    (n <= 100 -> B2R (lo_alt o : b64) <= 40000 -> radians (B2R e) <= elevation G P) /\
    exists x : b64, T = (t + seconds x)%Z /\ is_finite x = true /\ Rabs (B2R x - distance G P / IZR v) <= H * n / 100000000000 / IZR v.
Proof.
  intros fsin fcos ftan ACC ACT junk prec os pos crc fcs tx_time has_mob seconds v w0 ops w new T dst src payload q from to own c a b s o ps g G e atm fspl margin n
    Hu S SO HA SG AB R E0 T0 Na Nb Ma Mb HC HL HD Hv Fe He budget FB HB F RUN LG Hn HT HI.
  destruct (traffic_origin crc fcs tx_time has_mob w0 ops w new R E0 F RUN LG T dst src payload q from to own c HI HC)
    as (w1 & dest & tx & [KC KD] & TT & _ & _ & HH & -> & _ & PW).
  destruct (KD src) as [Gs _]. destruct (KD dst) as [Gd _].
  assert (Na1 : node_of w1 src = Some a) by (unfold node_of in *; rewrite Gs; exact Na).
  assert (Nb1 : node_of w1 dst = Some b) by (unfold node_of in *; rewrite Gd; exact Nb).
  rewrite <- KC in HL, HD. unfold budget in FB, HB. rewrite <- Gs in FB, HB.
  assert (HT1 : IZR (w_now w1) <= n * 86400000000000) by (apply Rle_trans with (2 := HT), IZR_le; lia).
  assert (AB1 : (a = s /\ pos b (w_now w1) = g) \/ (b = s /\ pos a (w_now w1) = g)) by (destruct AB as [[A B]|[A B]]; auto).
  destruct (C82_ground_hears_binary64 fsin fcos ftan ACC ACT junk prec os pos has_mob seconds v w1 c src dst a b s o ps g G e atm fspl margin n
    Hu S SO HA SG AB1 Na1 Nb1 Ma Mb HL HD Hv Fe He FB HB Hn ltac:(lia) HT1) as (tau & RF & _ & X2 & X3 & x & X4 & X5 & X6).
  exists (w_now w1), tau. split; [exact TT|]. split; [exact RF|]. cbv zeta in *. split; [|split; [apply X3, HH|]].
  - match goal with |- ?x < ?y => destruct (Rlt_dec x y) as [L|L]; [exact L|exfalso] end. apply Rnot_lt_le, X2 in L. congruence.
  - exists x. split; [rewrite (X4 tx); reflexivity|]. split; assumption.
Qed.
Print Assumptions C83_ground_receptions_binary64.

(** What is sent in doubles over a link that is clear by the margin of C82 arrives, after the time light
    takes up to rounding. *)
Theorem C83_isl_delivery_binary64 : forall fsin fcos ftan, accurate fsin fcos ->
  forall (junk : vec (Num64 fsin fcos ftan)) precision os pos crc fcs tx_time has_mob seconds v (w : world (Num64 fsin fcos ftan)) o w1 new t d c p from to q dest tx gap dst ops w' a b oa psa ob psb (n : R),
  Forall (fun o : leoorbit (Num64 fsin fcos ftan) => u16 (lo_planes o) /\ u16 (lo_sats o)) os ->
  satellite junk precision os (pos a) oa psa -> satellite junk precision os (pos b) ob psb -> sane_orbit oa -> sane_orbit ob ->
  / 1000 <= B2R (lo_alt oa : b64) -> / 1000 <= B2R (lo_alt ob : b64) ->
  reachable crc fcs tx_time has_mob w -> step crc fcs tx_time has_mob w o = Ok w1 -> w_log w1 = w_log w ++ new ->
  In (t, ToChannel d c (frame_of crc fcs p to q from) dest tx gap) new ->
  recipient w1 c d dest dst -> d <> dst ->
  node_of w1 d = Some a -> node_of w1 dst = Some b -> has_mob a = true -> has_mob b = true ->
  c_loss (w_chan w1 c) = Some (isl_loss pos) -> c_delay (w_chan w1 c) = Some (constant_speed pos seconds (b64_Z v : num (Num64 fsin fcos ftan))) -> (1 <= v <= 1000000000)%Z ->
  is_finite (g_txp (d_cfg (w_dev w1 d)) : b64) = true -> -900 <= B2R (g_txp (d_cfg (w_dev w1 d)) : b64) ->
  1 <= n <= 100000 -> (0 <= w_now w1)%Z -> IZR (w_now w1) <= n * 86400000000000 ->
  (length (p_bytes p) <= 1492)%nat -> (0 <= from < 2 ^ 48)%Z -> (0 <= to < 2 ^ 48)%Z -> (0 <= q < 2 ^ 16)%Z ->
  let g := d_cfg (w_dev w1 dst) in
  g_err g = None -> nlt (Num64 fsin fcos ftan) (effective_power g (g_txp (d_cfg (w_dev w1 d)))) (g_thr g) = false ->
  to = (2 ^ 48 - 1)%Z \/ to = g_addr g ->
  Forall (leaves dst) ops -> run crc fcs tx_time has_mob w1 ops = Ok w' -> w_events w' = [] ->
  exists ta tb, refreshed precision (w_now w1) ta /\ refreshed precision (w_now w1) tb /\
    let P := sat_path64 oa psa (sec ta) in let Q := sat_path64 ob psb (sec tb) in
    let h := earth_radius_km + Rmax (B2R (lo_alt oa : b64)) (B2R (lo_alt ob : b64)) in
    (h / 500 <= distance P Q -> unobstructed (isl_earth_radius + h / 500) P Q ->
     exists x : b64, Rabs (B2R x - distance P Q / IZR v) <= h * n / 100000000 / IZR v /\
       In ((t + seconds x)%Z, RxCallback dst d (p_bytes p) q from to (g_addr g)) (w_log w')).
Proof.
  intros fsin fcos ftan ACC junk prec os pos crc fcs tx_time has_mob seconds v w o w1 new t d c p from to q dest tx gap dst ops w' a b oa psa ob psb n
    Hu Sa Sb Oa Ob Aa Ab RE ST LG IN RC ND Na Nb Ma Mb HL HD Hv FP HP Hn Ht HT HB Hf Hto Hq g HE HG HTO LV RUN EV.
  destruct (C82_isl_hears_binary64 fsin fcos ftan ACC junk prec os pos has_mob seconds v w1 c d dst a b oa psa ob psb n Hu Sa Sb Oa Ob Aa Ab Na Nb Ma Mb HL HD Hv FP HP Hn Ht HT)
    as (ta & tb & Ra & Rb & X).
  exists ta, tb. split; [exact Ra|]. split; [exact Rb|]. cbv zeta in *. intros FAR U. destruct (X FAR) as (X1 & _ & x & X3 & _ & X5). destruct (X1 U) as [H1 H2].
  exists x. split; [exact X5|]. rewrite <- (X3 tx). eapply C73_end_to_end; try eassumption.
  - rewrite H2. exact HG.
  - fold g. rewrite HE. discriminate.
  - fold g. tauto.
  - right. exact EV.
Qed.
Print Assumptions C83_isl_delivery_binary64.

Theorem C83_ground_delivery_binary64 : forall fsin fcos ftan, accurate fsin fcos -> accurate_tan ftan ->
  forall (junk : vec (Num64 fsin fcos ftan)) precision os pos crc fcs tx_time has_mob seconds v (w : world (Num64 fsin fcos ftan)) op w1 new t d c p from to q dest tx gap dst ops w' a b s o ps g G (e atm fspl margin : b64) (n : R),
  Forall (fun o : leoorbit (Num64 fsin fcos ftan) => u16 (lo_planes o) /\ u16 (lo_sats o)) os ->
  satellite junk precision os (pos s) o ps -> sane_orbit o -> 101 <= B2R (lo_alt o : b64) ->
  ground_station g G -> (a = s /\ pos b (w_now w1) = g) \/ (b = s /\ pos a (w_now w1) = g) ->
  reachable crc fcs tx_time has_mob w -> step crc fcs tx_time has_mob w op = Ok w1 -> w_log w1 = w_log w ++ new ->
  In (t, ToChannel d c (frame_of crc fcs p to q from) dest tx gap) new ->
  recipient w1 c d dest dst -> d <> dst ->
  node_of w1 d = Some a -> node_of w1 dst = Some b -> has_mob a = true -> has_mob b = true ->
  c_loss (w_chan w1 c) = Some (leo_loss pos (mkLeoLoss (SetElevationAngle (N := Num64 fsin fcos ftan) e) atm fspl margin)) ->
  c_delay (w_chan w1 c) = Some (constant_speed pos seconds (b64_Z v : num (Num64 fsin fcos ftan))) -> (1 <= v <= 1000000000)%Z ->
  is_finite e = true -> 0 <= B2R e <= 89 ->
  let budget := b64_minus (b64_minus (b64_minus (g_txp (d_cfg (w_dev w1 d))) atm) fspl) margin in
  is_finite budget = true -> -900 <= B2R budget ->
  1 <= n <= 100000 -> (0 <= w_now w1)%Z -> IZR (w_now w1) <= n * 86400000000000 ->
  (length (p_bytes p) <= 1492)%nat -> (0 <= from < 2 ^ 48)%Z -> (0 <= to < 2 ^ 48)%Z -> (0 <= q < 2 ^ 16)%Z ->
  let k := d_cfg (w_dev w1 dst) in
  g_err k = None -> nlt (Num64 fsin fcos ftan) (effective_power k (budget : num (Num64 fsin fcos ftan))) (g_thr k) = false ->
  to = (2 ^ 48 - 1)%Z \/ to = g_addr k ->
  Forall (leaves dst) ops -> run crc fcs tx_time has_mob w1 ops = Ok w' -> w_events w' = [] ->
  exists tau, refreshed precision (w_now w1) tau /\
    let P := sat_path64 o ps (sec tau) in
    let H := 1000 * (earth_radius_km + B2R (lo_alt o : b64)) in
    (distance G P <= slant_range leo_earth_radius H (radians (B2R e)) - H * (/ 50000000 + n / 100000000000) ->
     exists x : b64, Rabs (B2R x - distance G P / IZR v) <= H * n / 100000000000 / IZR v /\
       In ((t + seconds x)%Z, RxCallback dst d (p_bytes p) q from to (g_addr k)) (w_log w')).
Proof.
  intros fsin fcos ftan ACC ACT junk prec os pos crc fcs tx_time has_mob seconds v w op w1 new t d c p from to q dest tx gap dst ops w' a b s o ps g G e atm fspl margin n
    Hu S SO HA SG AB RE ST LG IN RC ND Na Nb Ma Mb HL HD Hv Fe He budget FB HB Hn Ht HT HLn Hf Hto Hq k HE HG HTO LV RUN EV.
  destruct (C82_ground_hears_binary64 fsin fcos ftan ACC ACT junk prec os pos has_mob seconds v w1 c d dst a b s o ps g G e atm fspl margin n
    Hu S SO HA SG AB Na Nb Ma Mb HL HD Hv Fe He FB HB Hn Ht HT) as (tau & RF & X1 & _ & _ & x & X4 & _ & X6).
  exists tau. split; [exact RF|]. cbv zeta in *. intros NEAR. destruct (X1 NEAR) as [H1 H2].
  exists x. split; [exact X6|]. rewrite <- (X4 tx). eapply C73_end_to_end; try eassumption.
  - rewrite H2. exact HG.
  - fold k. rewrite HE. discriminate.
  - fold k. tauto.
  - right. exact EV.
Qed.
Print Assumptions C83_ground_delivery_binary64.

(** ** Examples: packet 7 over the ring of C80 and C82, and from a station at the pole to the satellite
    above it; ns3::Seconds is replaced by a constant. *)
Definition pole_ops {N : Num} loss delay : list (op N) :=
  setup 10 1 0 ++ OSet 1%nat (CType true) :: setup 10 1 1 ++ [@OSetDelay N 1%nat (Some delay); @OSetLoss N 1%nat (Some loss)].
Lemma pole_run : forall (N : Num) loss pos v, let delay := @constant_speed N pos (fun _ => 44%Z) v in
  nlt N (loss (nZ N 1) 10%nat 11%nat 0%Z) (nZ N (-900)) = false ->
  nlt N (nadd N (nsub N (loss (nZ N 1) 10%nat 11%nat 0%Z) (nZ N 0)) (nZ N 0)) (nZ N (-1000)) = false ->
  exists w w1 w', run ex_crc true ex_tx ex_mob (@start N) (pole_ops loss delay) = Ok w /\
    step ex_crc true ex_tx ex_mob w (OSend 0%nat (packet 7) (Mac 2) 2048) = Ok w1 /\
    run ex_crc true ex_tx ex_mob w1 [ORun; ORun] = Ok w' /\ w_events w' = [] /\
    let new := skipn (length (w_log w)) (w_log w1) in w_log w1 = w_log w ++ new /\
    In (0%Z, ToChannel 0 1 (frame_of ex_crc true (packet 7) 2 2048 1) 2 64000000 0) new /\ w_now w1 = 0%Z /\
    recipient w1 1 0 2 1 /\
    node_of w1 0 = Some 10%nat /\ node_of w1 1 = Some 11%nat /\ c_loss (w_chan w1 1%nat) = Some loss /\ c_delay (w_chan w1 1%nat) = Some delay /\
    d_cfg (w_dev w1 0%nat) = mkCfg Gnd (Some 10%nat) 1 8000 0 (nZ N (-1000)) (nZ N 1) (nZ N 0) (nZ N 0) None true false /\
    d_cfg (w_dev w1 1%nat) = mkCfg Sat (Some 11%nat) 2 8000 0 (nZ N (-1000)) (nZ N 1) (nZ N 0) (nZ N 0) None true false.
Proof.
  intros N loss pos v delay H1 H2.
  assert (A : exists w, run ex_crc true ex_tx ex_mob (@start N) (pole_ops loss delay) = Ok w) by (eexists; lazy -[nlt nZ nopp nadd nsub]; reflexivity).
  destruct A as [w E]. exists w. pose proof E as E'. lazy -[nlt nZ nopp nadd nsub] in E'. injection E' as E'.
  assert (A : exists w1, step ex_crc true ex_tx ex_mob w (OSend 0%nat (packet 7) (Mac 2) 2048) = Ok w1).
  { rewrite <- E'. eexists. lazy -[nlt nZ nopp nadd nsub]. rewrite H1. reflexivity. }
  destruct A as [w1 E1]. exists w1. pose proof E1 as E1'. rewrite <- E' in E1'. lazy -[nlt nZ nopp nadd nsub] in E1'. rewrite H1 in E1'. injection E1' as E1'.
  assert (A : exists w2, step ex_crc true ex_tx ex_mob w1 ORun = Ok w2).
  { rewrite <- E1'. eexists. lazy -[nlt nZ nopp nadd nsub]. rewrite H2. reflexivity. }
  destruct A as [w2 E2]. pose proof E2 as E2'. rewrite <- E1' in E2'. lazy -[nlt nZ nopp nadd nsub] in E2'. rewrite H2 in E2'. injection E2' as E2'.
  assert (A : exists w3, step ex_crc true ex_tx ex_mob w2 ORun = Ok w3 /\ w_events w3 = []).
  { rewrite <- E2'. eexists. split; [lazy -[nlt nZ nopp nadd nsub]; reflexivity|reflexivity]. }
  destruct A as (w3 & E3 & EV). exists w3. split; [exact E|]. split; [exact E1|].
  split; [cbn [run]; rewrite E2; cbn [bind]; rewrite E3; reflexivity|]. split; [exact EV|].
  rewrite <- E', <- E1'. lazy -[nlt nZ nopp nadd nsub]. repeat split; auto 12.
  left. split; [exists 0%nat; auto|]. split; [intros (x & [X|[]]); discriminate X|auto].
Qed.

(** The worlds these runs send from are at rest, and nothing was received before. *)
Lemma ring_start : forall (N : Num) loss delay w, run ex_crc true ex_tx ex_mob (@start N) (ring_ops loss delay) = Ok w ->
  w_events w = [] /\ w_now w = 0%Z /\ d_chan (w_dev w 0%nat) = Some 0%nat /\ callback_free (w_log w) /\
  node_of w 0 = Some 10%nat /\ node_of w 1 = Some 11%nat /\ c_loss (w_chan w 0%nat) = Some loss /\ c_delay (w_chan w 0%nat) = Some delay /\
  g_txp (d_cfg (w_dev w 0%nat)) = nZ N 1.
Proof.
  intros N loss delay w E. lazy -[nlt nZ nopp nadd nsub] in E. injection E as <-. split; [reflexivity|]. split; [reflexivity|]. split; [reflexivity|]. split; [|repeat split].
  intros t d src payload q from to own HI. cbn in HI. intuition discriminate.
Qed.
Lemma pole_start : forall (N : Num) loss delay w, run ex_crc true ex_tx ex_mob (@start N) (pole_ops loss delay) = Ok w ->
  w_events w = [] /\ w_now w = 0%Z /\ d_chan (w_dev w 0%nat) = Some 1%nat /\ callback_free (w_log w) /\
  node_of w 0 = Some 10%nat /\ node_of w 1 = Some 11%nat /\ c_loss (w_chan w 1%nat) = Some loss /\ c_delay (w_chan w 1%nat) = Some delay /\
  g_txp (d_cfg (w_dev w 0%nat)) = nZ N 1.
Proof.
  intros N loss delay w E. lazy -[nlt nZ nopp nadd nsub] in E. injection E as <-. split; [reflexivity|]. split; [reflexivity|]. split; [reflexivity|]. split; [|repeat split].
  intros t d src payload q from to own HI. cbn in HI. intuition discriminate.
Qed.

Lemma delivered_new : forall (N : Num) crc fcs tx_time has_mob (w : world N) o w1 ops w' T d src payload q from to own,
  reachable crc fcs tx_time has_mob w -> callback_free (w_log w) -> step crc fcs tx_time has_mob w o = Ok w1 -> run crc fcs tx_time has_mob w1 ops = Ok w' ->
  In (T, RxCallback d src payload q from to own) (w_log w') ->
  exists new, run crc fcs tx_time has_mob w (o :: ops) = Ok w' /\ w_log w' = w_log w ++ new /\ In (T, RxCallback d src payload q from to own) new.
Proof.
  intros N crc fcs tx_time has_mob w o w1 ops w' T d src payload q from to own R CF E1 E2 HI.
  assert (RUN : run crc fcs tx_time has_mob w (o :: ops) = Ok w') by (cbn [run]; rewrite E1; exact E2).
  destruct (run_extends crc fcs tx_time has_mob (o :: ops) w w' R RUN) as (new & EL). exists new. split; [exact RUN|]. split; [exact EL|].
  rewrite EL in HI. apply in_app_or in HI as [HI|HI]; [exfalso; exact (CF _ _ _ _ _ _ _ _ HI)|exact HI].
Qed.

Example ex_C83 : forall junk : point, exists pos (w w' : world NumR) new,
  (forall k, (k < 4)%nat -> satellite junk 1000000000 ex_ring (pos (10 + k)%nat) (@mkLeoOrbit NumR 3000 90 1 4) (ex_place k)) /\
  reachable ex_crc true ex_tx ex_mob w /\ w_events w = [] /\ w_now w = 0%Z /\ node_of w 0 = Some 10%nat /\ node_of w 1 = Some 11%nat /\
  d_chan (w_dev w 0%nat) = Some 0%nat /\ c_loss (w_chan w 0%nat) = Some (isl_loss pos) /\
  c_delay (w_chan w 0%nat) = Some (constant_speed pos (fun _ => 44%Z) 299792458) /\ g_txp (d_cfg (w_dev w 0%nat)) = 1 /\
  let ops := [OSend 0%nat (packet 7) (Mac 2) 2048; ORun; ORun] in
  Forall traffic ops /\ run ex_crc true ex_tx ex_mob w ops = Ok w' /\ w_log w' = w_log w ++ new /\
  In (44%Z, RxCallback 1 0 (p_bytes (packet 7)) 2048 1 2 2) new.
Proof.
  intros junk. destruct (ex_C80_delivery junk) as (pos & S & H). exists pos.
  apply holds_ok in H as (w' & H & HI). rewrite run_app in H. apply bind_ok in H as (w & E & H).
  destruct (ring_start _ _ _ _ E) as (EV & NW & DC & CF & F1 & F2 & F3 & F4 & F5).
  assert (R : reachable ex_crc true ex_tx ex_mob w) by (exists (fun _ => true), ex_kinds; eexists; exact E).
  pose proof H as H'. cbn [run] in H'. apply bind_ok in H' as (w1 & E1 & E2).
  destruct (delivered_new _ _ _ _ _ w _ w1 [ORun; ORun] w' _ _ _ _ _ _ _ _ R CF E1 E2 HI) as (new & RUN & EL & IN).
  exists w, w', new. split; [exact S|]. split; [exact R|]. split; [exact EV|]. split; [exact NW|].
  repeat (split; [assumption|]). cbv zeta. split; [repeat constructor|]. split; [exact RUN|]. split; [exact EL|exact IN].
Qed.

Lemma power_value : forall (N : Num) (w : world N) c src dst f a b, c_loss (w_chan w c) = Some f -> node_of w src = Some a -> node_of w dst = Some b ->
  power_at (fun _ => true) w c src dst = f (g_txp (d_cfg (w_dev w src))) a b (w_now w).
Proof. intros N w c src dst f a b L A B. unfold power_at. rewrite A, B. unfold link_power. rewrite L. reflexivity. Qed.

(** The same in doubles. *)
Section Doubles.
Variables fsin fcos ftan : b64 -> b64.
Hypothesis ACC : accurate fsin fcos.
Hypothesis ACT : accurate_tan ftan.
Local Notation N64 := (Num64 fsin fcos ftan).
Local Notation o64 := (ex_o64 fsin fcos ftan).

(** Node 10 + k carries satellite k; node 14 is a station at the pole, and node 15 satellite 0 again. *)
Definition paths64 (k : nat) (t : Z) : vec N64 := CalcPosition (sat_orbit (o64, ex_place k)) (latest 1000000000 t) (latest 1000000000 t).
Definition pole64 : vec N64 := @GetEarthPosition N64 (@mkLatLong N64 (b64_Z 0) (b64_Z 0)).
Definition isl_pos64 (k : nat) : Z -> vec N64 := paths64 (k - 10).
Definition pole_pos64 (k : nat) : Z -> vec N64 := if Nat.eqb k 10 then fun _ => pole64 else paths64 0.

Lemma paths64_satellite : forall (junk : vec N64) k, (k < 4)%nat -> satellite junk 1000000000 [o64] (paths64 k) o64 (ex_place k).
Proof.
  intros junk k Hk.
  assert (Hu : Forall (fun o => u16 (lo_planes o) /\ u16 (lo_sats o)) [o64]) by (repeat constructor; cbn; lia).
  assert (Hi : Forall installable [o64]) by (constructor; [|constructor]; split; [cbn; lia|right; vm_compute; reflexivity]).
  assert (E : nth_error (concat (map satellites [o64])) k = Some (o64, ex_place k)) by (destruct k as [|[|[|[|k]]]]; try lia; reflexivity).
  exact (installed_satellite N64 1000000000 junk [o64] k o64 (ex_place k) Hu Hi E).
Qed.

Lemma o64_sane : sane_orbit (o64 : leoorbit N64) /\ B2R (lo_alt o64 : b64) = 3000 /\ Forall (fun o => u16 (lo_planes o) /\ u16 (lo_sats o)) [o64].
Proof.
  destruct (Z_exact_64 3000 ltac:(lia)) as [V1 F1]. destruct (Z_exact_64 90 ltac:(lia)) as [V2 F2].
  split; [|split; [exact V1|repeat constructor; cbn; lia]]. unfold sane_orbit, ex_o64. cbn [lo_alt lo_inc]. rewrite V1, V2, Rabs_pos_eq by lra. repeat split; try assumption; lra.
Qed.

Lemma pole64_station : @ground_station fsin fcos ftan pole64 (pt 0 0 6371000).
Proof.
  destruct (Z_exact_64 0 ltac:(lia)) as [V0 F0].
  right. exists [mkLatLong (b64_Z 0 : num N64) (b64_Z 0)], 0%nat, (b64_Z 0), (b64_Z 0). split; [reflexivity|]. split; [reflexivity|].
  split; [exact F0|]. split; [rewrite V0, Rabs_R0; lra|]. split; [exact F0|]. split; [rewrite V0, Rabs_R0; lra|].
  rewrite V0. unfold sphere_point, ground_radius. replace (2 * 0 * PI / 180) with 0 by field. rewrite sin_0, cos_0. unfold pt. f_equal; change (num NumR) with R; ring.
Qed.

Lemma o64_0 : sat_path64 (o64 : leoorbit N64) (ex_place 0) (sec 0) = pt 0 0 9371009.
Proof. rewrite ex_o64_at by lia. cbn [INR]. rewrite Rmult_0_l, sin_0, cos_0. f_equal; change (num NumR) with R; ring. Qed.
Lemma o64_1 : sat_path64 (o64 : leoorbit N64) (ex_place 1) (sec 0) = pt 0 9371009 0.
Proof. rewrite ex_o64_at by lia. cbn [INR]. rewrite Rmult_1_l, sin_PI2, cos_PI2. f_equal; change (num NumR) with R; ring. Qed.

Lemma apart64 : earth_radius_km + Rmax (B2R (lo_alt o64 : b64)) (B2R (lo_alt o64 : b64)) = 9371.009.
Proof. destruct o64_sane as (_ & V & _). rewrite Rmax_left by lra. rewrite V. unfold earth_radius_km. lra. Qed.
Lemma clear64 : 9371.009 / 500 <= distance (pt 0 0 9371009) (pt 0 9371009 0) /\ unobstructed (isl_earth_radius + 9371.009 / 500) (pt 0 0 9371009) (pt 0 9371009 0).
Proof.
  split.
  - apply norm_le_sq; [lra|]. unfold minus, inner, pt, px, py, pz; cbn. lra.
  - intros t Ht'. apply norm_lt_sq; [unfold isl_earth_radius; lra|].
    unfold on_segment, plus, GeomSpec.scale, minus, inner, isl_earth_radius, pt, px, py, pz; cbn.
    pose proof (Rle_0_sqr (t - 1 / 2)) as SQ. unfold Rsqr in SQ. nra.
Qed.

(** Full power between satellites 0 and 1. *)
Lemma isl_power64 : forall junk : vec N64, isl_loss isl_pos64 (b64_Z 1 : num N64) 10%nat 11%nat 0%Z = b64_Z 1.
Proof.
  intros junk. destruct o64_sane as (SO & V & Hu). destruct (Z_exact_64 1 ltac:(lia)) as [V3 F3].
  assert (A3 : / 1000 <= B2R (lo_alt o64 : b64)) by (rewrite V; lra).
  set (w := ex_world64 fsin fcos ftan isl_pos64).
  assert (L0 : c_loss (w_chan w 0%nat) = Some (isl_loss isl_pos64)) by reflexivity.
  assert (DD : c_delay (w_chan w 0%nat) = Some (constant_speed isl_pos64 (fun x : num N64 => up (B2R (x : b64) * 1000000000)) (b64_Z 299792458 : num N64))) by reflexivity.
  assert (NO : forall d, node_of w d = Some d) by reflexivity.
  assert (TX : g_txp (d_cfg (w_dev w 10%nat)) = b64_Z 1) by reflexivity.
  assert (NW : w_now w = 0%Z) by reflexivity. clearbody w.
  destruct (C82_isl_hears_binary64 fsin fcos ftan ACC junk 1000000000 [o64] isl_pos64 (fun _ => true) _ 299792458 w 0 10 11 10 11 o64 (ex_place 0) o64 (ex_place 1) 1
    Hu (paths64_satellite junk 0 ltac:(lia)) (paths64_satellite junk 1 ltac:(lia)) SO SO A3 A3 (NO 10%nat) (NO 11%nat) eq_refl eq_refl L0 DD ltac:(lia)
    ltac:(rewrite TX; exact F3) ltac:(rewrite TX, V3; lra) ltac:(lra) ltac:(lia) ltac:(rewrite NW; lra)) as (ta & tb & Ra & Rb & H).
  rewrite NW in Ra, Rb. apply ex_tick0 in Ra, Rb. subst ta tb. rewrite o64_0, o64_1, apart64 in H. destruct clear64 as [C1 C2].
  destruct (H C1) as [H1 _]. destruct (H1 C2) as [_ H2]. rewrite (power_value _ _ _ _ _ _ _ _ L0 (NO 10%nat) (NO 11%nat)), TX, NW in H2. exact H2.
Qed.

(** The link budget from the station to satellite 0. *)
Definition pole_model64 : leoloss N64 := mkLeoLoss (SetElevationAngle (N := N64) (b64_Z 30)) (b64_Z 0) (b64_Z 0) (b64_Z 0).
Lemma near64 : B2R (lo_alt o64 : b64) = 3000 -> B2R (b64_Z 30) = 30 ->
  distance (pt 0 0 6371000) (pt 0 0 9371009) <=
  slant_range leo_earth_radius (1000 * (earth_radius_km + B2R (lo_alt o64 : b64))) (radians (B2R (b64_Z 30))) - 1000 * (earth_radius_km + B2R (lo_alt o64 : b64)) * (/ 50000000 + 1 / 100000000000).
Proof.
  intros V1 V4. assert (DG : distance (pt 0 0 6371000) (pt 0 0 9371009) = 3000009).
  { unfold distance, norm. replace (inner _ _) with (3000009 * 3000009) by (unfold inner, minus, pt, px, py, pz; cbn; lra). apply sqrt_square. lra. }
  rewrite DG. unfold earth_radius_km, slant_range. rewrite V1, V4. replace (radians 30) with (PI / 6) by (unfold radians; field).
  rewrite sin_PI6. unfold leo_earth_radius.
  match goal with |- _ <= sqrt ?x - _ - _ => assert (SQ : sqrt (8000000 * 8000000) <= sqrt x) by (apply sqrt_le_1_alt; lra) end.
  rewrite sqrt_square in SQ by lra. lra.
Qed.
Lemma budget64 : b64_minus (b64_minus (b64_minus (b64_Z 1) (b64_Z 0)) (b64_Z 0)) (b64_Z 0) = b64_Z 1.
Proof. apply B2SF_inj. vm_compute. reflexivity. Qed.
Lemma pole_power64 : forall junk : vec N64, leo_loss pole_pos64 pole_model64 (b64_Z 1 : num N64) 10%nat 11%nat 0%Z = b64_Z 1.
Proof.
  intros junk. destruct o64_sane as (SO & V & Hu). destruct (Z_exact_64 1 ltac:(lia)) as [V3 F3]. destruct (Z_exact_64 30 ltac:(lia)) as [V4 F4].
  assert (A3 : 101 <= B2R (lo_alt o64 : b64)) by (rewrite V; lra).
  set (w := mkWorld 0 (w_dev (ex_world64 fsin fcos ftan pole_pos64)) (fun _ => @mkChan N64 LeoChannel [] [] [] (Some (leo_loss pole_pos64 pole_model64))
    (Some (constant_speed pole_pos64 (fun x : num N64 => 44%Z) (b64_Z 299702458 : num N64)))) [] []).
  assert (L0 : c_loss (w_chan w 1%nat) = Some (leo_loss pole_pos64 pole_model64)) by reflexivity.
  assert (DD : c_delay (w_chan w 1%nat) = Some (constant_speed pole_pos64 (fun x : num N64 => 44%Z) (b64_Z 299702458 : num N64))) by reflexivity.
  assert (NO : forall d, node_of w d = Some d) by reflexivity.
  assert (TX : g_txp (d_cfg (w_dev w 10%nat)) = b64_Z 1) by reflexivity.
  assert (NW : w_now w = 0%Z) by reflexivity. clearbody w.
  destruct (C82_ground_hears_binary64 fsin fcos ftan ACC ACT junk 1000000000 [o64] pole_pos64 (fun _ => true) _ 299702458 w 1 10 11 10 11 11 o64 (ex_place 0) pole64 (pt 0 0 6371000)
    (b64_Z 30) (b64_Z 0) (b64_Z 0) (b64_Z 0) 1 Hu (paths64_satellite junk 0 ltac:(lia)) SO A3 pole64_station (or_intror (conj eq_refl eq_refl)) (NO 10%nat) (NO 11%nat) eq_refl eq_refl L0 DD ltac:(lia)
    F4 ltac:(rewrite V4; lra) ltac:(rewrite TX, budget64; exact F3) ltac:(rewrite TX, budget64, V3; lra) ltac:(lra) ltac:(lia) ltac:(rewrite NW; lra)) as (tau & RF & H & _).
  rewrite NW in RF. apply ex_tick0 in RF. subst tau. rewrite o64_0 in H. destruct (H (near64 V V4)) as [_ H2].
  rewrite (power_value _ _ _ _ _ _ _ _ L0 (NO 10%nat) (NO 11%nat)), TX, NW, budget64 in H2. exact H2.
Qed.

Lemma above64 : nlt N64 (nZ N64 1) (nZ N64 (-900)) = false /\ nlt N64 (nadd N64 (nsub N64 (nZ N64 1) (nZ N64 0)) (nZ N64 0)) (nZ N64 (-1000)) = false.
Proof. split; vm_compute; reflexivity. Qed.

Lemma isl_sent64 : forall junk : vec N64,
  let delay := constant_speed isl_pos64 (fun _ : num N64 => 44%Z) (b64_Z 299792458 : num N64) in
  (forall k, (k < 4)%nat -> satellite junk 1000000000 [o64] (isl_pos64 (10 + k)%nat) o64 (ex_place k)) /\
  holds (fun w => In (44%Z, RxCallback 1 0 (p_bytes (packet 7)) 2048 1 2 2) (w_log w))
    (run ex_crc true ex_tx ex_mob (@start N64) (ring_ops (isl_loss isl_pos64) delay ++ [OSend 0%nat (packet 7) (Mac 2) 2048; ORun; ORun])).
Proof.
  intros junk delay. split; [intros k Hk; unfold isl_pos64; replace (10 + k - 10)%nat with k by lia; apply paths64_satellite, Hk|].
  destruct o64_sane as (SO & V & Hu). destruct (Z_exact_64 1 ltac:(lia)) as [V3 F3]. assert (A3 : / 1000 <= B2R (lo_alt o64 : b64)) by (rewrite V; lra).
  pose proof (isl_power64 junk) as L. destruct above64 as [B1 B2].
  destruct (ring_run N64 (isl_loss isl_pos64) isl_pos64 (b64_Z 299792458)) as (w & w1 & w' & E & E1 & E2 & EV & LG & IN & NW & K & CL & A0 & A1 & N0 & N1 & HL & HD & G0 & G1).
  - change (nZ N64 1) with (b64_Z 1). rewrite L. exact B1.
  - change (nZ N64 1) with (b64_Z 1). rewrite L. exact B2.
  - unfold delay. rewrite run_app, E. cbn [bind]. change (run ex_crc true ex_tx ex_mob w (OSend 0%nat (packet 7) (Mac 2) 2048 :: [ORun; ORun]))
      with (bind (step ex_crc true ex_tx ex_mob w (OSend 0%nat (packet 7) (Mac 2) 2048)) (fun w1 => run ex_crc true ex_tx ex_mob w1 [ORun; ORun])).
    rewrite E1. cbn [bind]. rewrite E2. cbn [holds].
    assert (RC : reachable ex_crc true ex_tx ex_mob w) by (exists (fun _ => true), ex_kinds; eexists; exact E).
    assert (RP : recipient w1 0 0 2 1).
    { unfold recipient. rewrite K, CL. left. exists 1%nat. split; [reflexivity|]. split; [exact A1|].
      intros [|j] x J X; [|lia]. injection X as <-. rewrite A0. discriminate. }
    assert (GT : g_txp (d_cfg (w_dev w1 0%nat)) = b64_Z 1) by (rewrite G0; reflexivity).
    assert (GE : g_err (d_cfg (w_dev w1 1%nat)) = None /\ g_addr (d_cfg (w_dev w1 1%nat)) = 2%Z) by (rewrite G1; split; reflexivity). destruct GE as [GE GA].
    assert (GP : nlt N64 (effective_power (d_cfg (w_dev w1 1%nat)) (g_txp (d_cfg (w_dev w1 0%nat)))) (g_thr (d_cfg (w_dev w1 1%nat))) = false) by (rewrite GT, G1; exact B2).
    destruct (C83_isl_delivery_binary64 fsin fcos ftan ACC junk 1000000000 [o64] isl_pos64 ex_crc true ex_tx ex_mob (fun _ => 44%Z) 299792458 w (OSend 0%nat (packet 7) (Mac 2) 2048) w1 _ 0 0 0 (packet 7) 1 2 2048 2 64000000 0 1
      [ORun; ORun] w' 10 11 o64 (ex_place 0) o64 (ex_place 1) 1 Hu (paths64_satellite junk 0 ltac:(lia)) (paths64_satellite junk 1 ltac:(lia)) SO SO A3 A3 RC E1 LG IN RP ltac:(lia) N0 N1 eq_refl eq_refl HL HD ltac:(lia)
      ltac:(rewrite GT; exact F3) ltac:(rewrite GT, V3; lra) ltac:(lra) ltac:(lia) ltac:(rewrite NW; lra) ltac:(cbn; lia) ltac:(lia) ltac:(lia) ltac:(lia) GE GP (or_intror (eq_sym GA))
      ltac:(repeat constructor) E2 EV) as (ta & tb & Ra & Rb & H).
    rewrite NW in Ra, Rb. apply ex_tick0 in Ra, Rb. subst ta tb. rewrite o64_0, o64_1, apart64, GA in H. destruct clear64 as [C1 C2].
    destruct (H C1 C2) as (x & _ & X). change (0 + 44)%Z with 44%Z in X. exact X.
Qed.

Lemma pole_sent64 : forall junk : vec N64,
  let delay := constant_speed pole_pos64 (fun _ : num N64 => 44%Z) (b64_Z 299702458 : num N64) in
  satellite junk 1000000000 [o64] (pole_pos64 11) o64 (ex_place 0) /\ (forall t, ground_station (pole_pos64 10 t) (pt 0 0 6371000)) /\
  holds (fun w => In (44%Z, RxCallback 1 0 (p_bytes (packet 7)) 2048 1 2 2) (w_log w))
    (run ex_crc true ex_tx ex_mob (@start N64) (pole_ops (leo_loss pole_pos64 pole_model64) delay ++ [OSend 0%nat (packet 7) (Mac 2) 2048; ORun; ORun])).
Proof.
  intros junk delay. split; [exact (paths64_satellite junk 0 ltac:(lia))|]. split; [intros t; exact pole64_station|].
  destruct o64_sane as (SO & V & Hu). destruct (Z_exact_64 1 ltac:(lia)) as [V3 F3]. destruct (Z_exact_64 30 ltac:(lia)) as [V4 F4].
  assert (A3 : 101 <= B2R (lo_alt o64 : b64)) by (rewrite V; lra).
  pose proof (pole_power64 junk) as L. destruct above64 as [B1 B2].
  destruct (pole_run N64 (leo_loss pole_pos64 pole_model64) pole_pos64 (b64_Z 299702458)) as (w & w1 & w' & E & E1 & E2 & EV & LG & IN & NW & RP & N0 & N1 & HL & HD & G0 & G1).
  - change (nZ N64 1) with (b64_Z 1). rewrite L. exact B1.
  - change (nZ N64 1) with (b64_Z 1). rewrite L. exact B2.
  - unfold delay. rewrite run_app, E. cbn [bind]. change (run ex_crc true ex_tx ex_mob w (OSend 0%nat (packet 7) (Mac 2) 2048 :: [ORun; ORun]))
      with (bind (step ex_crc true ex_tx ex_mob w (OSend 0%nat (packet 7) (Mac 2) 2048)) (fun w1 => run ex_crc true ex_tx ex_mob w1 [ORun; ORun])).
    rewrite E1. cbn [bind]. rewrite E2. cbn [holds].
    assert (RC : reachable ex_crc true ex_tx ex_mob w) by (exists (fun _ => true), ex_kinds; eexists; exact E).
    assert (GT : g_txp (d_cfg (w_dev w1 0%nat)) = b64_Z 1) by (rewrite G0; reflexivity).
    assert (GE : g_err (d_cfg (w_dev w1 1%nat)) = None /\ g_addr (d_cfg (w_dev w1 1%nat)) = 2%Z) by (rewrite G1; split; reflexivity). destruct GE as [GE GA].
    assert (GP : nlt N64 (effective_power (d_cfg (w_dev w1 1%nat)) (b64_minus (b64_minus (b64_minus (g_txp (d_cfg (w_dev w1 0%nat))) (b64_Z 0)) (b64_Z 0)) (b64_Z 0) : num N64)) (g_thr (d_cfg (w_dev w1 1%nat))) = false)
      by (rewrite GT, budget64, G1; exact B2).
    destruct (C83_ground_delivery_binary64 fsin fcos ftan ACC ACT junk 1000000000 [o64] pole_pos64 ex_crc true ex_tx ex_mob (fun _ => 44%Z) 299702458 w (OSend 0%nat (packet 7) (Mac 2) 2048) w1 _ 0 0 1 (packet 7) 1 2 2048 2 64000000 0 1
      [ORun; ORun] w' 10 11 11 o64 (ex_place 0) pole64 (pt 0 0 6371000) (b64_Z 30) (b64_Z 0) (b64_Z 0) (b64_Z 0) 1
      Hu (paths64_satellite junk 0 ltac:(lia)) SO A3 pole64_station (or_intror (conj eq_refl eq_refl)) RC E1 LG IN RP ltac:(lia) N0 N1 eq_refl eq_refl HL HD ltac:(lia)
      F4 ltac:(rewrite V4; lra) ltac:(rewrite GT, budget64; exact F3) ltac:(rewrite GT, budget64, V3; lra) ltac:(lra) ltac:(lia) ltac:(rewrite NW; lra) ltac:(cbn; lia) ltac:(lia) ltac:(lia) ltac:(lia) GE GP (or_intror (eq_sym GA))
      ltac:(repeat constructor) E2 EV) as (tau & RF & H).
    rewrite NW in RF. apply ex_tick0 in RF. subst tau. rewrite o64_0, GA in H.
    destruct (H (near64 V V4)) as (x & _ & X). change (0 + 44)%Z with 44%Z in X. exact X.
Qed.
End Doubles.

(** With correctly rounded trigonometric functions: packet 7 arrives over the inter-satellite link and over the ground link. *)
Example ex_C83_binary64 : forall junk : vec ex_N64, exists isl pole G,
  (forall k, (k < 4)%nat -> satellite junk 1000000000 [ex_o64 _ _ _] (isl (10 + k)%nat) (ex_o64 _ _ _) (ex_place k)) /\
  holds (fun w => In (44%Z, RxCallback 1 0 (p_bytes (packet 7)) 2048 1 2 2) (w_log w))
    (run ex_crc true ex_tx ex_mob (@start ex_N64)
       (ring_ops (isl_loss isl) (constant_speed isl (fun _ => 44%Z) (b64_Z 299792458 : num ex_N64)) ++ [OSend 0%nat (packet 7) (Mac 2) 2048; ORun; ORun])) /\
  satellite junk 1000000000 [ex_o64 _ _ _] (pole 11%nat) (ex_o64 _ _ _) (ex_place 0) /\ (forall t, ground_station (pole 10%nat t) G) /\
  holds (fun w => In (44%Z, RxCallback 1 0 (p_bytes (packet 7)) 2048 1 2 2) (w_log w))
    (run ex_crc true ex_tx ex_mob (@start ex_N64)
       (pole_ops (leo_loss pole (pole_model64 _ _ _)) (constant_speed pole (fun _ => 44%Z) (b64_Z 299702458 : num ex_N64)) ++ [OSend 0%nat (packet 7) (Mac 2) 2048; ORun; ORun])).
Proof.
  intros junk. exists (isl_pos64 _ _ _), (pole_pos64 _ _ _), (pt 0 0 6371000).
  destruct (isl_sent64 _ _ _ ex_accurate junk) as [A B]. destruct (pole_sent64 _ _ _ ex_accurate ex_accurate_tan junk) as (C & D & E).
  split; [exact A|]. split; [exact B|]. split; [exact C|]. split; [exact D|exact E].
Qed.
