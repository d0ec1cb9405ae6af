(** C29-C32: frames. [crc] is an arbitrary checksum function; [f1], [f2] tell
    whether checksums are enabled at the sender and at the receiver. *)
Require Import ZArith List Bool Lia.
Require Import Verif.Base Verif.FrameModel Verif.FrameProofs.
Import ListNotations.
Local Open Scope Z_scope.

(** ** C29 *)
Theorem C29_frame_round_trip : forall crc f1 f2 src dst q p,
  0 <= src < 2 ^ 48 -> 0 <= dst < 2 ^ 48 -> 0 <= q < 2 ^ 16 ->
  f2 = false \/ f1 = true -> Z.of_nat (length p) <= 1492 ->
  Decapsulate crc f2 (AddHeader crc f1 src dst q p) = Ok (Frame p q src dst).
Proof.
  intros crc f1 f2 src dst q p Hs Hd Hq Hf Hp. rewrite Decapsulate_AddHeader by assumption.
  change (Z.of_nat (length p)) with (len p) in Hp. pose proof (len_pos _ p). cbv zeta.
  rewrite Z.mod_small by lia.
  destruct (Z.leb_spec (len p + 8) 1500); [|lia]. destruct (Z.ltb_spec (len p + 8) 65536); [reflexivity|lia].
Qed.
Print Assumptions C29_frame_round_trip.

Example ex_C29 : Decapsulate (fun l => fold_left Z.add l 7) true
    (AddHeader (fun l => fold_left Z.add l 7) true 1 281474976710655 2048 [1; 2; 3]) =
  Ok (Frame [1; 2; 3] 2048 1 281474976710655).
Proof. vm_compute. reflexivity. Qed.

(** ** C30 *)
Theorem C30_frame_size : forall crc f src dst q p,
  let n := Z.of_nat (length p) in
  let size := Z.of_nat (length (AddHeader crc f src dst q p)) in
  size = Z.max 46 (n + 8) + 18 /\ 64 <= size /\ (38 <= n -> size = n + 26).
Proof.
  intros crc f src dst q p n size.
  assert (H : size = Z.max 46 (n + 8) + 18) by (apply AddHeader_len). lia.
Qed.
Print Assumptions C30_frame_size.

Example ex_C30 : length (AddHeader (fun _ => 0) false 1 2 3 []) = 64%nat /\
  length (AddHeader (fun _ => 0) false 1 2 3 (repeat 0 1492)) = 1518%nat.
Proof. split; vm_compute; reflexivity. Qed.

(** ** C31 *)
Theorem C31_oversize_misparsed : forall crc f1 f2 src dst q p,
  0 <= src < 2 ^ 48 -> 0 <= dst < 2 ^ 48 -> 0 <= q < 2 ^ 16 ->
  f2 = false \/ f1 = true -> 1493 <= Z.of_nat (length p) <= 65527 ->
  exists llc, length llc = 8%nat /\
  Decapsulate crc f2 (AddHeader crc f1 src dst q p) =
    Ok (Frame (llc ++ p) (Z.of_nat (length p) + 8) src dst).
Proof.
  intros crc f1 f2 src dst q p Hs Hd Hq Hf Hp. exists ([170; 170; 3; 0; 0; 0] ++ be16 q).
  split; [reflexivity|]. rewrite Decapsulate_AddHeader by assumption.
  change (Z.of_nat (length p)) with (len p) in *. cbv zeta. rewrite Z.mod_small by lia.
  destruct (Z.leb_spec (len p + 8) 1500); [lia|]. rewrite <- app_assoc. reflexivity.
Qed.
Print Assumptions C31_oversize_misparsed.

(** The documented limit is the MTU, 1500 by default. *)
Theorem C31_mtu_refuted : exists p : list Z, Z.of_nat (length p) <= 1500 /\
  forall crc src dst q, 0 <= src < 2 ^ 48 -> 0 <= dst < 2 ^ 48 -> 0 <= q < 2 ^ 16 ->
  exists p' q', p' <> p /\ Decapsulate crc true (AddHeader crc true src dst q p) = Ok (Frame p' q' src dst).
Proof.
  exists (repeat 0 (Z.to_nat 1500)). rewrite repeat_length. split; [lia|].
  intros crc src dst q Hs Hd Hq.
  destruct (C31_oversize_misparsed crc true true src dst q (repeat 0 (Z.to_nat 1500)) Hs Hd Hq) as (llc & Hl & H).
  - right. reflexivity.
  - rewrite repeat_length. lia.
  - eexists _, _. split; [|exact H]. intros E. apply (f_equal (@length Z)) in E. rewrite app_length in E. lia.
Qed.
Print Assumptions C31_mtu_refuted.

(** ** C32 *)
Theorem C32_length_wrap : forall crc f1 f2 src dst q p,
  0 <= src < 2 ^ 48 -> 0 <= dst < 2 ^ 48 -> 0 <= q < 2 ^ 16 ->
  f2 = false \/ f1 = true -> 65528 <= Z.of_nat (length p) ->
  let lt := (Z.of_nat (length p) + 8) mod 2 ^ 16 in
  (lt <= 1500 -> Decapsulate crc f2 (AddHeader crc f1 src dst q p) = Abort AssertPadding) /\
  (1500 < lt -> exists llc, length llc = 8%nat /\
    Decapsulate crc f2 (AddHeader crc f1 src dst q p) = Ok (Frame (llc ++ p) lt src dst)).
Proof.
  intros crc f1 f2 src dst q p Hs Hd Hq Hf Hp lt. rewrite Decapsulate_AddHeader by assumption.
  change (Z.of_nat (length p)) with (len p) in *. cbv zeta. change ((len p + 8) mod 65536) with lt.
  split; intros Hl.
  - destruct (Z.leb_spec lt 1500); [|lia]. destruct (Z.ltb_spec (len p + 8) 65536); [lia|reflexivity].
  - destruct (Z.leb_spec lt 1500); [lia|]. exists ([170; 170; 3; 0; 0; 0] ++ be16 q). split; [reflexivity|].
    rewrite <- app_assoc. reflexivity.
Qed.
Print Assumptions C32_length_wrap.

(** Both cases occur: payloads of 65528 and of 67029 bytes. *)
Example ex_C32 : (65528 + 8) mod 2 ^ 16 <= 1500 /\ 1500 < (67029 + 8) mod 2 ^ 16.
Proof. split; vm_compute; congruence. Qed.
