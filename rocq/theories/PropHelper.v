(** C53, C54 and C62-C65: networks made by the channel helpers. *)
Require Import ZArith Reals Lra List Bool String Lia ZifyBool.
From Flocq Require Import IEEE754.BinarySingleNaN.
Require Import Verif.Base Verif.Num Verif.NumR Verif.Num64 Verif.Vec Verif.LossModel Verif.FrameModel Verif.NetModel Verif.NetSpec
  Verif.NetChanProofs Verif.NetSafeProofs Verif.GeomSpec Verif.LossSpec Verif.LossProofs Verif.LossApiProofs Verif.NetExamples
  Verif.HelperModel Verif.HelperSpec Verif.HelperProofs Verif.HelperSafeProofs Verif.HelperApiProofs.
Import ListNotations.
Local Open Scope Z_scope.

(** ** C53: programs of installations, sends and events never fail *)
Theorem C53_never_fails : forall (N : Num) crc fcs tx_time has_mob pos seconds (l : list (act N)) id,
  (forall bps n, 0 < bps -> 0 <= n -> 0 <= tx_time bps n) ->
  (forall v, v = 299702458 \/ v = 299792458 -> forall a b t, 0 <= constant_speed pos seconds (nZ N v) a b t) ->
  Forall (sane_act pos seconds) l -> 0 <= id -> id + devices l < 2 ^ 48 ->
  exists w, run crc fcs tx_time has_mob (initial_for l) (program pos seconds 0 0 id l) = Ok w.
Proof.
  intros N crc fcs tx_time has_mob pos seconds l id T V S I1 I2. rewrite <- devices_total in I2.
  destruct (programs_okay crc fcs tx_time has_mob T pos seconds l id) as (w & H & _); auto; [|eauto].
  apply sane_good; assumption.
Qed.
Print Assumptions C53_never_fails.

(** In exact arithmetic delays are never negative. *)
Theorem C53_exact : forall crc fcs tx_time has_mob pos (seconds : num NumR -> Z) (l : list (act NumR)) id,
  (forall bps n, 0 < bps -> 0 <= n -> 0 <= tx_time bps n) -> (forall x : R, (0 <= x)%R -> 0 <= seconds x) ->
  Forall (sane_act pos seconds) l -> 0 <= id -> id + devices l < 2 ^ 48 ->
  exists w, run crc fcs tx_time has_mob (initial_for l) (program pos seconds 0 0 id l) = Ok w.
Proof.
  intros crc fcs tx_time has_mob pos seconds l id T S F I1 I2. apply C53_never_fails; auto.
  intros v Hv a b t. unfold constant_speed. apply S. cbn. unfold Rdiv. apply Rmult_le_pos; [apply sqrt_pos|].
  apply Rlt_le, Rinv_0_lt_compat. apply IZR_lt. lia.
Qed.
Print Assumptions C53_exact.

(** Two satellites and a ground station with a preset, three inter-satellite
    devices, and traffic. *)
Definition ex_pos (n : nat) (t : Z) : vec NumZ := @V NumZ (Z.of_nat n) 0 0.
Definition ex_seconds (x : num NumZ) : Z := Z.abs x.
Definition ex_leo_calls : list (leo_call NumZ) := [HSatAttribute (AGap 5); HConstellation "TelesatUser"; HGndQueue (fun q _ => false)].
Definition ex_program : list (act NumZ) :=
  match leo_helper_calls (new_leo_helper ex_pos ex_seconds) ex_leo_calls with
  | Ok h => [ALeoInstall h [10; 11]%nat [12]%nat; AOp (OSend 0 (packet 7) (Mac broadcast) 2048);
             AIslInstall (new_isl_helper ex_pos ex_seconds) [10; 11; 13]%nat; AOp ORun; AOp (OSend 3 (packet 8) (Mac 5) 2048); AOp ORun]
  | _ => []
  end.
Example ex_C53 : Forall (sane_act ex_pos ex_seconds) ex_program /\ devices ex_program = 6 /\
  holds (fun w => List.length (w_log w) = 28%nat)
        (run ex_crc true ex_tx ex_mob (initial_for ex_program) (program ex_pos ex_seconds 0 0 7 ex_program)).
Proof.
  split; [|split; vm_compute; reflexivity].
  unfold ex_program. cbn. repeat apply Forall_cons; [| | | | | |apply Forall_nil]; cbn [sane_act].
  - exists ex_leo_calls. split; [reflexivity|]. repeat constructor; cbn; lia.
  - unfold ordinary, packet, broadcast. cbn [p_bytes List.length]. lia.
  - exists []. split; [reflexivity|constructor].
  - exact I.
  - unfold ordinary, packet, broadcast. cbn [p_bytes List.length]. lia.
  - exact I.
Qed.

(** ** C54: inter-satellite delivery is exactly line of sight *)
Theorem C54_line_of_sight : forall has_mob pos (w : world NumR) c p i src k dst tx a b,
  let link := c_link (w_chan w c) in
  nth_error link i = Some src -> nth_error link k = Some dst ->
  (forall j x, (j < k)%nat -> nth_error link j = Some x -> addr_of w x <> addr_of w dst) ->
  c_loss (w_chan w c) = Some (isl_loss pos) ->
  (forall f, c_delay (w_chan w c) = Some f -> forall a b t, 0 <= f a b t) ->
  node_of w src = Some a -> node_of w dst = Some b -> has_mob a = true -> has_mob b = true ->
  (-900 <= g_txp (d_cfg (w_dev w src)))%R ->
  pos a (w_now w) <> pos b (w_now w) ->
  (isl_earth_radius <= norm (pos a (w_now w)) \/ isl_earth_radius <= norm (pos b (w_now w)))%R ->
  exists r w', IslTransmitStart has_mob w c p i (addr_of w dst) tx = Ok (r, w') /\
    (r = true <-> unobstructed isl_earth_radius (pos a (w_now w)) (pos b (w_now w))) /\
    (r = true -> exists delay,
       w_log w' = w_log w ++ [(w_now w, TxRx c p src dst tx delay)] /\
       w_events w' = insert_event (w_now w + delay, RxEvent dst p src (g_txp (d_cfg (w_dev w src)))) (w_events w)) /\
    (r = false -> w' = w).
Proof.
  intros has_mob pos w c p i src k dst tx a b link HS HD HF HL HDel Ha Hb Ma Mb P NE OUT.
  assert (G : GetDevice w c (addr_of w dst) = Some dst).
  { unfold GetDevice. fold link. revert k HD HF. generalize link. clear. intros l. induction l as [|x r IH]; intros k HD HF; [destruct k; discriminate|].
    cbn. destruct k as [|k].
    - injection HD as ->. rewrite Z.eqb_refl. reflexivity.
    - destruct (Z.eqb_spec (addr_of w x) (addr_of w dst)) as [E|_]; [exfalso; apply (HF O x); [lia|reflexivity|exact E]|].
      apply (IH k HD). intros j y Hj Hy. apply (HF (S j) y); [lia|exact Hy]. }
  unfold IslTransmitStart. fold link. rewrite HS, G. unfold Deliver. rewrite Ha, Hb, Ma, Mb, HL. cbn [andb].
  destruct (isl_rx_geometry (g_txp (d_cfg (w_dev w src))) (pos a (w_now w)) (pos b (w_now w)) NE OUT) as [V1 V2].
  unfold isl_loss.
  destruct (GetLos (pos a (w_now w)) (pos b (w_now w))) eqn:LOS.
  - assert (X : @IslCalcRxPower NumR (g_txp (d_cfg (w_dev w src))) (pos a (w_now w)) (pos b (w_now w)) = g_txp (d_cfg (w_dev w src))).
    { unfold IslCalcRxPower. rewrite LOS. reflexivity. }
    rewrite X. change (nlt NumR) with Rltb. unfold Rltb. change (nZ NumR (-900)) with (-900)%R. destruct (Rlt_dec _ _); [lra|].
    set (delay := GetPropagationDelay (w_chan w c) a b (w_now w)).
    assert (D : 0 <= delay).
    { unfold delay, GetPropagationDelay. destruct (c_delay (w_chan w c)) as [f|] eqn:E; [apply (HDel f); reflexivity|lia]. }
    unfold schedule. rewrite (proj2 (Z.ltb_ge _ _)) by assumption. cbn [bind].
    eexists _, _. split; [reflexivity|]. split; [|split; [|discriminate]].
    + split; [intros _|reflexivity]. apply GetLos_correct; assumption.
    + intros _. exists delay. split; reflexivity.
  - assert (X : @IslCalcRxPower NumR (g_txp (d_cfg (w_dev w src))) (pos a (w_now w)) (pos b (w_now w)) = (-1000)%R).
    { unfold IslCalcRxPower. rewrite LOS. cbn. lra. }
    rewrite X. change (nlt NumR) with Rltb. unfold Rltb. change (nZ NumR (-900)) with (-900)%R. destruct (Rlt_dec _ _); [|lra].
    eexists _, _. split; [reflexivity|]. split; [|split; [discriminate|reflexivity]].
    split; [discriminate|]. intros U. apply GetLos_correct in U; [|assumption|assumption]. congruence.
Qed.
Print Assumptions C54_line_of_sight.

(** Devices 0, 1, 2 on nodes of the same numbers; 0 and 1 see each other, 2 is
    behind the Earth for 0. *)
Definition ex_sats (n : nat) (t : Z) : vec NumR :=
  match n with O => pt 6921009 0 0 | S O => pt 6900000 500000 0 | _ => pt (-6921009) 0 0 end.
Definition ex_isl_world : world NumR :=
  mkWorld 0 (fun d => @mkDev NumR (@mkCfg NumR Plain (Some d) (Z.of_nat d + 1) 8000 0 (-1000)%R 1%R 0%R 0%R None true false)
                        (Some (drop_tail 100)) [] false None (Some 0%nat) d true)
          (fun c => @mkChan NumR IslChannel [0; 1; 2]%nat [] [] (Some (isl_loss ex_sats)) (Some (fun _ _ _ => 4))) [] [].
Example ex_C54 : forall p tx,
  (exists w', IslTransmitStart (fun _ => true) ex_isl_world 0 p 0 2 tx = Ok (true, w')) /\
  IslTransmitStart (fun _ => true) ex_isl_world 0 p 0 3 tx = Ok (false, ex_isl_world).
Proof.
  intros p tx. split.
  - destruct (C54_line_of_sight (fun _ => true) ex_sats ex_isl_world 0 p 0 0 1 1 tx 0 1) as (r & w' & H & [_ R] & _); try reflexivity.
    + intros [|j] x Hj Hx; [|lia]. injection Hx as <-. discriminate.
    + intros f Hf. injection Hf as <-. lia.
    + cbn. lra.
    + intros H. injection H. intros. lra.
    + left. unfold isl_earth_radius. cbn [ex_sats ex_isl_world w_now]. rewrite norm_x, Rabs_pos_eq by lra. lra.
    + cbn [addr_of] in H. change (addr_of ex_isl_world 1) with 2 in H. rewrite R in H; [exists w'; exact H|].
      intros t Ht. apply norm_lt_sq; [unfold isl_earth_radius; lra|].
      unfold on_segment, plus, scale, minus, inner, isl_earth_radius, pt, px, py, pz; cbn. nra.
  - destruct (C54_line_of_sight (fun _ => true) ex_sats ex_isl_world 0 p 0 0 2 2 tx 0 2) as (r & w' & H & [R _] & _ & RF); try reflexivity.
    + intros [|[|j]] x Hj Hx; [| |lia]; injection Hx as <-; discriminate.
    + intros f Hf. injection Hf as <-. lia.
    + cbn. lra.
    + intros H. injection H. intros. lra.
    + left. unfold isl_earth_radius. cbn [ex_sats ex_isl_world w_now]. rewrite norm_x, Rabs_pos_eq by lra. lra.
    + change (addr_of ex_isl_world 2) with 3 in H. destruct r; [|rewrite (RF eq_refl) in H; exact H].
      exfalso. specialize (R eq_refl (1/2)%R ltac:(lra)). cbn [ex_sats ex_isl_world w_now] in R.
      replace (on_segment (pt 6921009 0 0) (pt (-6921009) 0 0) (1/2)) with (pt 0 0 0) in R.
      * rewrite norm_x, Rabs_R0 in R. unfold isl_earth_radius in R. lra.
      * unfold on_segment, plus, scale, minus, pt, px, py, pz; cbn. f_equal; change (num NumR) with R; lra.
Qed.

(** ** C62: presets *)
Theorem C62_presets : forall (N : Num) crc fcs tx_time has_mob pos seconds p (h : leo_helper N) w c d sats gnds id,
  In p published ->
  let n := List.length (sats ++ gnds) in
  w_chan w c = new_chan LeoChannel -> (forall i, (i < n)%nat -> d_cfg (w_dev w (d + i)) = new_cfg true) ->
  0 <= id -> id + Z.of_nat n < 2 ^ 48 ->
  exists h' w', SetConstellation h (ps_name p) = Ok h' /\
    run crc fcs tx_time has_mob w (leo_install pos seconds h' c d sats gnds id) = Ok w' /\
    (forall i, (i < n)%nat -> let g := d_cfg (w_dev w' (d + i)) in
       g_txp g = ndec N (ps_eirp p) 1 /\ g_gain g = ndec N (ps_gain p) 1 /\ g_loss g = nZ N 0 /\ g_bps g = ps_rate p) /\
    c_loss (w_chan w' c) = Some (fun tx a b t =>
      LeoCalcRxPower (mkLeoLoss (SetElevationAngle (N := N) (nZ N (ps_elevation p)))
                        (ndec N (fst (ps_atmospheric p)) (snd (ps_atmospheric p))) (ndec N (ps_fspl p) 1) (ndec N (ps_margin p) 2))
                     tx (pos a t) (pos b t)).
Proof.
  intros N crc fcs tx_time has_mob pos seconds p h w c d sats gnds id HP n HC HD I1 I2.
  destruct (SetConstellation_cases h (ps_name p)) as [(q & Q1 & Q2 & Q3)|[X _]].
  2:{ exfalso. apply X. apply in_map. assumption. }
  apply (published_names q p Q1 HP) in Q2. subst q. eexists. rewrite Q3.
  match goal with |- exists w', Ok ?x = Ok _ /\ _ => set (h' := x) end.
  destruct (leo_install_spec crc fcs tx_time has_mob pos seconds h' c d sats gnds id w HC HD I1 I2) as (w' & H & T & D & K & L & LO & _).
  exists w'. split; [reflexivity|]. split; [exact H|]. split.
  - intros i Hi. destruct (nth_error (sats ++ gnds) i) as [node|] eqn:E; [|apply nth_error_None in E; unfold n in Hi; lia].
    rewrite (D i node E). cbn [d_cfg]. unfold leo_attrs.
    assert (Y : forall l, let g := installed_cfg (N := N) (new_cfg true)
               (l ++ [ATxPower (ndec N (ps_eirp p) 1); ARxLoss (nZ N 0); ARxGain (ndec N (ps_gain p) 1); ARate (ps_rate p)])
               node (id + 1 + Z.of_nat i) in
       g_txp g = ndec N (ps_eirp p) 1 /\ g_gain g = ndec N (ps_gain p) 1 /\ g_loss g = nZ N 0 /\ g_bps g = ps_rate p).
    { intros l. unfold installed_cfg, attrs_cfg. rewrite fold_left_app. cbn. auto. }
    destruct (i <? List.length sats)%nat; apply Y.
  - rewrite LO. reflexivity.
Qed.
Print Assumptions C62_presets.

Theorem C62_unknown_name : forall (N : Num) (h : leo_helper N) name,
  name <> "StarlinkGateway"%string -> name <> "StarlinkUser"%string -> name <> "TelesatGateway"%string -> name <> "TelesatUser"%string ->
  SetConstellation h name = Abort AssertFailed.
Proof.
  intros N h name H1 H2 H3 H4. destruct (SetConstellation_cases h name) as [(q & Q1 & Q2 & _)|[_ X]]; [|exact X].
  cbn in Q1. destruct Q1 as [<-|[<-|[<-|[<-|[]]]]]; cbn in Q2; congruence.
Qed.
Print Assumptions C62_unknown_name.

Example ex_C62 : is_ok (SetConstellation (N := NumZ) (new_leo_helper ex_pos ex_seconds) "TelesatUser") = true /\
  is_ok (SetConstellation (N := NumZ) (new_leo_helper ex_pos ex_seconds) "OneWebUser") = false.
Proof. split; reflexivity. Qed.

(** ** C63: preset links close, in binary64 *)
Theorem C63_links_close : forall fsin fcos ftan p (a b : vec (Num64 fsin fcos ftan)), In p published ->
  let N := Num64 fsin fcos ftan in
  let tx := ndec N (ps_eirp p) 1 in
  let rx := LeoCalcRxPower (N := N) (preset_loss p) tx a b in
  (nlt N (GetCutoffDistance (N := N) (preset_loss p) (if nlt N (vlen b) (vlen a) then a else b)) (vdist a b) = true /\ rx = nopp N (nZ N 1000)) \/
  (nlt N rx (nZ N (-900)) = false /\
   forall g : cfg N, g_kind g <> Plain -> g_loss g = nZ N 0 -> g_gain g = ndec N (ps_gain p) 1 ->
     nlt N (DoCalcRxPower g rx) (nZ N (-1000)) = false).
Proof.
  intros fsin fcos ftan p a b HP N tx rx. subst rx. unfold LeoCalcRxPower.
  destruct (nlt N (GetCutoffDistance _ _) _); [left; auto|]. right. cbn in HP.
  split.
  - destruct HP as [<-|[<-|[<-|[<-|[]]]]]; vm_compute; reflexivity.
  - intros g K L G. unfold DoCalcRxPower. destruct (g_kind g); [contradiction| |]; rewrite L, G;
      destruct HP as [<-|[<-|[<-|[<-|[]]]]]; vm_compute; reflexivity.
Qed.
Print Assumptions C63_links_close.

(** The devices which Install creates with a preset have that threshold: whatever
    the channel does not cut off, they receive, unless there is an error model. *)
Theorem C63_installed_links_close : forall fsin fcos ftan crc fcs tx_time has_mob,
  let N := Num64 fsin fcos ftan in
  forall (pos : nat -> Z -> vec N) seconds p w c d sats gnds id, In p published ->
  let n := List.length (sats ++ gnds) in
  w_chan w c = new_chan LeoChannel -> (forall i, (i < n)%nat -> d_cfg (w_dev w (d + i)) = new_cfg true) ->
  0 <= id -> id + Z.of_nat n < 2 ^ 48 ->
  exists h w', SetConstellation (new_leo_helper (N := N) pos seconds) (ps_name p) = Ok h /\
    run crc fcs tx_time has_mob w (leo_install pos seconds h c d sats gnds id) = Ok w' /\
    forall i j, (i < n)%nat -> (j < n)%nat -> forall a b : vec N,
      let rx := LeoCalcRxPower (N := N) (preset_loss p) (g_txp (d_cfg (w_dev w' (d + i)))) a b in
      nlt N rx (nZ N (-900)) = false ->
      nlt N (DoCalcRxPower (d_cfg (w_dev w' (d + j))) rx) (g_thr (d_cfg (w_dev w' (d + j)))) = false.
Proof.
  intros fsin fcos ftan crc fcs tx_time has_mob N pos seconds p w c d sats gnds id HP n HC HD I1 I2.
  destruct (SetConstellation_cases (new_leo_helper (N := N) pos seconds) (ps_name p)) as [(q & Q1 & Q2 & Q3)|[X _]].
  2:{ exfalso. apply X. apply in_map. assumption. }
  apply (published_names q p Q1 HP) in Q2. subst q. eexists. rewrite Q3.
  match goal with |- exists w', Ok ?x = Ok _ /\ _ => set (h' := x) end.
  destruct (leo_install_spec crc fcs tx_time has_mob pos seconds h' c d sats gnds id w HC HD I1 I2) as (w' & H & T & D & _).
  exists w'. split; [reflexivity|]. split; [exact H|].
  assert (Y : forall i, (i < n)%nat -> exists node, d_cfg (w_dev w' (d + i)) = installed_cfg (N := N) (new_cfg true)
             (AType (i <? List.length sats)%nat :: [ATxPower (ndec N (ps_eirp p) 1); ARxLoss (nZ N 0); ARxGain (ndec N (ps_gain p) 1); ARate (ps_rate p)])
             node (id + 1 + Z.of_nat i)).
  { intros i Hi. destruct (nth_error (sats ++ gnds) i) as [node|] eqn:E; [|apply nth_error_None in E; unfold n in Hi; lia].
    exists node. rewrite (D i node E). cbn [d_cfg]. unfold leo_attrs. destruct (i <? List.length sats)%nat; reflexivity. }
  intros i j Hi Hj a b rx HR. destruct (Y i Hi) as (ni & Ei). destruct (Y j Hj) as (nj & Ej).
  assert (ET : g_txp (d_cfg (w_dev w' (d + i))) = ndec N (ps_eirp p) 1) by (rewrite Ei; reflexivity).
  unfold rx in *. clear rx. rewrite ET in *.
  destruct (C63_links_close fsin fcos ftan p a b HP) as [[_ X]|[_ X]].
  - exfalso. fold N in X. rewrite X in HR. revert HR. clear. unfold N. intros HR. vm_compute in HR. discriminate.
  - fold N in X. assert (ETH : g_thr (d_cfg (w_dev w' (d + j))) = nZ N (-1000)) by (rewrite Ej; reflexivity).
    rewrite ETH. apply X; rewrite Ej; try reflexivity. destruct (j <? List.length sats)%nat; intros K; vm_compute in K; discriminate K.
Qed.
Print Assumptions C63_installed_links_close.

(** Both cases occur: at zero distance below the cut-off nothing is lost; with NaN
    coordinates no comparison holds. Here: same position, with a tangent of 0. *)
Example ex_C63 : forall fsin fcos (x := b64_Z 7000000) (z := b64_Z 0),
  let N := Num64 fsin fcos (fun _ => b64_Z 0) in
  Bltb (@LeoCalcRxPower N (preset_loss (hd (mkPreset "" 0 0 0 (0, 1%positive) 0 0 0) published)) (b64_dec 984 1) (@V N x z z) (@V N x z z)) (b64_Z (-900)) = false /\
  Bltb (@LeoCalcRxPower N (preset_loss (hd (mkPreset "" 0 0 0 (0, 1%positive) 0 0 0) published)) (b64_dec 984 1) (@V N x z z) (@V N (Bopp x) z z)) (b64_Z (-900)) = true.
Proof. intros. split; vm_compute; reflexivity. Qed.

(** ** C64: what Install builds *)
Theorem C64_leo_install : forall (N : Num) crc fcs tx_time has_mob pos seconds calls (h : leo_helper N) w c d sats gnds id,
  leo_helper_calls (new_leo_helper pos seconds) calls = Ok h -> Forall keeps_types calls ->
  let n := List.length (sats ++ gnds) in
  w_chan w c = new_chan LeoChannel -> (forall i, (i < n)%nat -> d_cfg (w_dev w (d + i)) = new_cfg true) ->
  0 <= id -> id + Z.of_nat n < 2 ^ 48 ->
  exists w', run crc fcs tx_time has_mob w (leo_install pos seconds h c d sats gnds id) = Ok w' /\
    (forall i node, nth_error (sats ++ gnds) i = Some node ->
       let x := w_dev w' (d + i) in
       g_node (d_cfg x) = Some node /\ g_addr (d_cfg x) = id + 1 + Z.of_nat i /\
       g_kind (d_cfg x) = (if (i <? List.length sats)%nat then Sat else Gnd) /\
       g_rxcb (d_cfg x) = true /\ d_queue x <> None /\ d_q x = [] /\ d_chan x = Some c /\ d_id x = i /\ d_up x = true) /\
    c_kind (w_chan w' c) = LeoChannel /\ c_link (w_chan w' c) = seq d n /\
    (forall a x, In (a, x) (c_sat (w_chan w' c)) <->
       exists i, (i < List.length sats)%nat /\ a = id + 1 + Z.of_nat i /\ x = (d + i)%nat) /\
    (forall a x, In (a, x) (c_gnd (w_chan w' c)) <->
       exists i, (List.length sats <= i < n)%nat /\ a = id + 1 + Z.of_nat i /\ x = (d + i)%nat) /\
    (forall x, (x < d \/ d + n <= x)%nat -> w_dev w' x = w_dev w x) /\ (forall y, y <> c -> w_chan w' y = w_chan w y).
Proof.
  intros N crc fcs tx_time has_mob pos seconds calls h w c d sats gnds id HH HK n HC HD I1 I2.
  destruct (leo_install_spec crc fcs tx_time has_mob pos seconds h c d sats gnds id w HC HD I1 I2)
    as (w' & H & (_ & _ & _ & T4 & T5) & D & K & L & LO & DE & SI). fold n in T4, L, SI.
  assert (KI : forall i, leo_kind h sats i = if (i <? List.length sats)%nat then Sat else Gnd) by (intros i; eapply calls_kinds; eassumption).
  assert (LN : n = (List.length sats + List.length gnds)%nat) by (unfold n; apply app_length).
  exists w'. split; [exact H|]. split; [|split; [exact K|split; [exact L|split; [|split; [|split]]]]].
  - intros i node Hn. rewrite (D i node Hn). cbn zeta. split; [reflexivity|]. split; [reflexivity|].
    split; [exact (KI i)|]. repeat split; discriminate.
  - intros a x. specialize (SI Sat a x). cbn [side] in SI. rewrite SI by discriminate. split.
    + intros (i & Hi & -> & -> & X). rewrite KI in X. destruct (Nat.ltb_spec i (List.length sats)); [|discriminate]. exists i. auto.
    + intros (i & Hi & -> & ->). exists i. rewrite KI, (proj2 (Nat.ltb_lt _ _) Hi). repeat split; auto. lia.
  - intros a x. specialize (SI Gnd a x). cbn [side] in SI. rewrite SI by discriminate. split.
    + intros (i & Hi & -> & -> & X). rewrite KI in X. destruct (Nat.ltb_spec i (List.length sats)); [discriminate|]. exists i. auto.
    + intros (i & Hi & -> & ->). exists i. rewrite KI, (proj2 (Nat.ltb_ge _ _)) by lia. repeat split; auto. lia.
  - intros x Hx. apply T4. lia.
  - exact T5.
Qed.
Print Assumptions C64_leo_install.

Theorem C64_isl_install : forall (N : Num) crc fcs tx_time has_mob (h : isl_helper N) w c d nodes id,
  let n := List.length nodes in
  w_chan w c = new_chan IslChannel -> (forall i, (i < n)%nat -> d_cfg (w_dev w (d + i)) = new_cfg false) ->
  0 <= id -> id + Z.of_nat n < 2 ^ 48 ->
  exists w', run crc fcs tx_time has_mob w (isl_install h c d nodes id) = Ok w' /\
    (forall i node, nth_error nodes i = Some node ->
       let x := w_dev w' (d + i) in
       g_node (d_cfg x) = Some node /\ g_addr (d_cfg x) = id + 1 + Z.of_nat i /\ g_kind (d_cfg x) = Plain /\
       g_rxcb (d_cfg x) = true /\ d_queue x <> None /\ d_q x = [] /\ d_chan x = Some c /\ d_id x = i /\ d_up x = true) /\
    c_kind (w_chan w' c) = IslChannel /\ c_link (w_chan w' c) = seq d n /\
    (forall x, (x < d \/ d + n <= x)%nat -> w_dev w' x = w_dev w x) /\ (forall y, y <> c -> w_chan w' y = w_chan w y).
Proof.
  intros N crc fcs tx_time has_mob h w c d nodes id n HC HD I1 I2.
  destruct (isl_install_spec crc fcs tx_time has_mob (fun _ _ => @V N (nZ N 0) (nZ N 0) (nZ N 0)) h c d nodes id w HC HD I1 I2)
    as (w' & H & (_ & _ & _ & T4 & T5) & D & K & L & _).
  exists w'. split; [exact H|]. split; [|split; [exact K|split; [exact L|split]]].
  - intros i node Hn. rewrite (D i node Hn). cbn zeta. split; [reflexivity|]. split; [reflexivity|].
    split; [apply attrs_plain; reflexivity|]. repeat split; discriminate.
  - intros x Hx. apply T4. lia.
  - exact T5.
Qed.
Print Assumptions C64_isl_install.

(** A user-set DeviceType overrides the helper's: then satellites are ground
    devices, and what a ground station sends is not forwarded to them. *)
Theorem C64_types_refuted : forall (N : Num) crc pos seconds, exists calls h w,
  leo_helper_calls (new_leo_helper (N := N) pos seconds) calls = Ok h /\
  run crc false ex_tx (fun _ => false) (initial (fun _ => true) (fun _ => LeoChannel))
      (leo_install pos seconds h 0 0 [10]%nat [11]%nat 0) = Ok w /\
  g_kind (d_cfg (w_dev w 0%nat)) = Gnd /\
  (forall p, exists w', LeoTransmitStart (fun _ => false) w 0 p 1 1 0 = Ok (false, w')).
Proof.
  intros N crc pos seconds. exists [HSatAttribute (AType false)].
  assert (H : holds (fun w => g_kind (d_cfg (w_dev w 0%nat)) = Gnd /\ nth_error (c_link (w_chan w 0%nat)) 1 = Some 1%nat /\
      indexed (addr_of w 1%nat) (c_gnd (w_chan w 0%nat)) = true /\ c_sat (w_chan w 0%nat) = [])
    (bind (leo_helper_calls (new_leo_helper (N := N) pos seconds) [HSatAttribute (AType false)]) (fun h =>
     run crc false ex_tx (fun _ => false) (initial (fun _ => true) (fun _ => LeoChannel)) (leo_install pos seconds h 0 0 [10]%nat [11]%nat 0))))
    by (vm_compute; repeat split).
  destruct (leo_helper_calls (new_leo_helper (N := N) pos seconds) [HSatAttribute (AType false)]) as [h| |]; [|contradiction H|contradiction H].
  cbn [bind] in H. apply holds_ok in H as (w & R & K & L & I & S0). exists h, w. split; [reflexivity|]. split; [exact R|]. split; [exact K|].
  intros p. exists w. unfold LeoTransmitStart. rewrite L, I, S0. reflexivity.
Qed.
Print Assumptions C64_types_refuted.

Example ex_C64 : holds (fun w => map (fun d => (g_addr (d_cfg (w_dev w d)), g_kind (d_cfg (w_dev w d)), d_up (w_dev w d))) [0; 1; 2]%nat =
    [(8, Sat, true); (9, Sat, true); (10, Gnd, true)] /\ c_link (w_chan w 0%nat) = [0; 1; 2]%nat)
  (run ex_crc true ex_tx ex_mob (initial (fun _ => true) (fun _ => LeoChannel))
     (leo_install ex_pos ex_seconds (new_leo_helper ex_pos ex_seconds) 0 0 [10; 11]%nat [12]%nat 7)).
Proof. vm_compute. split; reflexivity. Qed.

(** ** C65: loss and delay models *)
Theorem C65_leo_channel : forall (N : Num) crc fcs tx_time has_mob pos seconds calls (h : leo_helper N) w c d sats gnds id,
  leo_helper_calls (new_leo_helper pos seconds) calls = Ok h ->
  let n := List.length (sats ++ gnds) in
  w_chan w c = new_chan LeoChannel -> (forall i, (i < n)%nat -> d_cfg (w_dev w (d + i)) = new_cfg true) ->
  0 <= id -> id + Z.of_nat n < 2 ^ 48 ->
  exists w' m, run crc fcs tx_time has_mob w (leo_install pos seconds h c d sats gnds id) = Ok w' /\
    chosen_loss calls m /\
    c_loss (w_chan w' c) = Some (fun tx a b t => LeoCalcRxPower m tx (pos a t) (pos b t)) /\
    c_delay (w_chan w' c) = Some (fun a b t => seconds (ndiv N (vdist (pos a t) (pos b t)) (nZ N 299702458))).
Proof.
  intros N crc fcs tx_time has_mob pos seconds calls h w c d sats gnds id HH n HC HD I1 I2.
  destruct (leo_install_spec crc fcs tx_time has_mob pos seconds h c d sats gnds id w HC HD I1 I2)
    as (w' & H & _ & D & K & L & LO & DE & _).
  destruct (calls_loss _ _ _ HH) as [S C]. exists w', (leo_loss_of h). split; [exact H|]. split; [|split; [exact LO|]].
  - unfold chosen_loss. destruct (chosen calls); [exact C|]. rewrite C. reflexivity.
  - rewrite DE, S. reflexivity.
Qed.
Print Assumptions C65_leo_channel.

(** So calls of SetChannelAttribute have no effect on either. *)
Definition not_channel_call {N : Num} (c : leo_call N) : bool := match c with HChannelAttribute _ => false | _ => true end.
Theorem C65_channel_attributes_ignored : forall (N : Num) crc fcs tx_time has_mob pos seconds calls (h h2 : leo_helper N) w c d sats gnds id w1 w2,
  leo_helper_calls (new_leo_helper pos seconds) calls = Ok h ->
  leo_helper_calls (new_leo_helper pos seconds) (filter not_channel_call calls) = Ok h2 ->
  let n := List.length (sats ++ gnds) in
  w_chan w c = new_chan LeoChannel -> (forall i, (i < n)%nat -> d_cfg (w_dev w (d + i)) = new_cfg true) ->
  0 <= id -> id + Z.of_nat n < 2 ^ 48 ->
  run crc fcs tx_time has_mob w (leo_install pos seconds h c d sats gnds id) = Ok w1 ->
  run crc fcs tx_time has_mob w (leo_install pos seconds h2 c d sats gnds id) = Ok w2 ->
  c_loss (w_chan w1 c) = c_loss (w_chan w2 c) /\ c_delay (w_chan w1 c) = c_delay (w_chan w2 c).
Proof.
  intros N crc fcs tx_time has_mob pos seconds calls h h2 w c d sats gnds id w1 w2 H1 H2 n HC HD I1 I2 R1 R2.
  destruct (C65_leo_channel N crc fcs tx_time has_mob pos seconds calls h w c d sats gnds id H1 HC HD I1 I2) as (w1' & m1 & E1 & M1 & L1 & D1).
  rewrite R1 in E1. injection E1 as <-.
    destruct (C65_leo_channel N crc fcs tx_time has_mob pos seconds _ h2 w c d sats gnds id H2 HC HD I1 I2) as (w2' & m2 & E2 & M2 & L2 & D2).
    rewrite R2 in E2. injection E2 as <-. rewrite L1, L2, D1, D2. split; [|reflexivity].
    assert (CH : chosen (filter not_channel_call calls) = chosen calls).
    { clear. induction calls as [|x r IH]; [reflexivity|]. destruct x; cbn; rewrite ?IH; reflexivity. }
    unfold chosen_loss in M1, M2. rewrite CH in M2. destruct (chosen calls) as [name|]; [|rewrite M1, M2; reflexivity].
    destruct M1 as (p & P1 & P2 & ->). destruct M2 as (q & Q1 & Q2 & ->).
    rewrite (published_names p q P1 Q1) by congruence. reflexivity.
Qed.
Print Assumptions C65_channel_attributes_ignored.

(** With IslHelper they are what the channel gets. *)
Theorem C65_isl_channel : forall (N : Num) crc fcs tx_time has_mob pos seconds calls (h : isl_helper N) w c d nodes id,
  isl_helper_calls (new_isl_helper pos seconds) calls = Ok h ->
  let n := List.length nodes in
  w_chan w c = new_chan IslChannel -> (forall i, (i < n)%nat -> d_cfg (w_dev w (d + i)) = new_cfg false) ->
  0 <= id -> id + Z.of_nat n < 2 ^ 48 ->
  exists w', run crc fcs tx_time has_mob w (isl_install h c d nodes id) = Ok w' /\
    c_loss (w_chan w' c) = last_loss (isl_channel_attributes calls) (Some (fun tx a b t => IslCalcRxPower tx (pos a t) (pos b t))) /\
    c_delay (w_chan w' c) = last_delay (isl_channel_attributes calls)
      (Some (fun a b t => seconds (ndiv N (vdist (pos a t) (pos b t)) (nZ N 299792458)))).
Proof.
  intros N crc fcs tx_time has_mob pos seconds calls h w c d nodes id HH n HC HD I1 I2.
  destruct (isl_install_spec crc fcs tx_time has_mob pos h c d nodes id w HC HD I1 I2) as (w' & H & _ & D & K & L & _ & _ & LO & DE).
  exists w'. split; [exact H|]. rewrite LO, DE. destruct (isl_calls_spec _ _ _ HH) as [-> _]. cbn [ih_chan new_isl_helper app fold_left].
  match goal with |- context [fold_left chan_apply ?l ?x] => destruct (last_loss_fold l x) as [-> ->] end. split; reflexivity.
Qed.
Print Assumptions C65_isl_channel.

Example ex_C65 : holds (fun h : leo_helper NumZ => holds (fun w : world NumZ => option_map (fun f => f 1 10%nat 11%nat 0) (c_loss (w_chan w 0%nat)) = Some (-1000))
     (run ex_crc true ex_tx ex_mob (initial (fun _ => true) (fun _ => LeoChannel)) (leo_install ex_pos ex_seconds h 0 0 [10; 11]%nat [12]%nat 7)))
  (leo_helper_calls (new_leo_helper (N := NumZ) ex_pos ex_seconds) [HChannelAttribute (ALoss (Some (fun _ _ _ _ => nZ NumZ 5)))]).
Proof. vm_compute. reflexivity. Qed.
