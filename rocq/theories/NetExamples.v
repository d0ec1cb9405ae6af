(** Concrete networks, used as examples beside the theorems on devices and channels. *)
Require Import ZArith List Bool.
Require Import Verif.Base Verif.Num Verif.FrameModel Verif.NetModel Verif.NetSpec.
Import ListNotations.
Local Open Scope Z_scope.

(** Whole numbers are enough for the powers in examples. *)
Definition NumZ : Num :=
  mkNum Z Z.add Z.sub Z.mul Z.div Z.opp Z.abs Z.sqrt (fun x => x) (fun x => x) (fun x => x) Z.min Z.ltb Z.eqb
        (fun x => x) (fun m k => m / Z.pos (10 ^ k)) 3.

Definition ex_crc (l : list Z) : Z := fold_left Z.add l 7.
(** 8 bits per byte, in ns. *)
Definition ex_tx (bps n : Z) : Z := 8 * n * 1000000000 / bps.
(** Nodes 10, 11, ... have mobility models. *)
Definition ex_mob (n : nat) : bool := (10 <=? n)%nat.

(** A device with address [d + 1] on node [node + d]. *)
Definition setup {N : Num} (node c d : nat) : list (op N) :=
  [OSet d (CAddress (Z.of_nat d + 1)); OSet d (CNode (node + d)); OSet d CRxCallback; OSet d (CRate 8000);
   OSetQueue d (Some (fun q _ => (length q <? 2)%nat)); OAttach d c].

(** Three devices on inter-satellite channel 0. *)
Definition isl3 {N : Num} (node : nat) : list (op N) :=
  setup node 0 0 ++ setup node 0 1 ++ setup node 0 2.
(** On LEO channel 1: ground devices 0 and 2, satellites 1 and 3. *)
Definition leo4 {N : Num} (node : nat) : list (op N) :=
  setup node 1 0 ++ OSet 1 (CType true) :: setup node 1 1 ++ setup node 1 2 ++ OSet 3 (CType true) :: setup node 1 3.
Definition ex_kinds (c : nat) : ckind := match c with O => IslChannel | _ => LeoChannel end.

(** State after a list of operations. *)
Definition start {N : Num} : world N := initial (fun _ => true) ex_kinds.
Definition after (fcs : bool) (ops : list (op NumZ)) : res (world NumZ) :=
  run ex_crc fcs ex_tx ex_mob start ops.
Definition holds {A : Type} (P : A -> Prop) (x : res A) : Prop := match x with Ok a => P a | _ => False end.
Lemma holds_ok : forall A (P : A -> Prop) x, holds P x -> exists a, x = Ok a /\ P a.
Proof. intros A P [a|e|e] H; cbn in H; try contradiction. eauto. Qed.

Lemma holds_imp : forall A (P Q : A -> Prop) x, holds P x -> (forall a, P a -> Q a) -> holds Q x.
Proof. intros A P Q [a|e|e] H HI; cbn in *; auto. Qed.

Lemma reachable_after : forall fcs ops w, after fcs ops = Ok w -> reachable ex_crc fcs ex_tx ex_mob w.
Proof. intros. exists (fun _ => true), ex_kinds, ops. assumption. Qed.

(** Observations without the packets. *)
Definition brief (x : Z * obs) : Z * list Z :=
  let n := Z.of_nat in
  (fst x, match snd x with
          | Sent d p dest q own ok => [0; n d; p_uid p; dest; if ok then 1 else 0]
          | MacTx d p => [1; n d; p_uid p]
          | MacTxDrop d p => [2; n d; p_uid p]
          | PhyTxBegin d p => [3; n d; p_uid p]
          | PhyTxEnd d p => [4; n d; p_uid p]
          | PhyTxDrop d p => [5; n d; p_uid p]
          | Sniffer d p => [6; n d; p_uid p]
          | PromiscSniffer d p => [7; n d; p_uid p]
          | ToChannel d c p dest tx gap => [8; n d; n c; p_uid p; dest; tx; gap]
          | TxRx c p src dst tx delay => [9; n c; p_uid p; n src; n dst; tx; delay]
          | PhyRxEnd d p src => [10; n d; p_uid p; n src]
          | PhyRxDrop d p => [11; n d; p_uid p]
          | MacRxDrop d p => [12; n d; p_uid p]
          | MacRx d p => [13; n d; p_uid p]
          | MacPromiscRx d p => [14; n d; p_uid p]
          | RxCallback d src payload q from to own => [15; n d; n src; q; from; to; own]
          | PromiscCallback d src payload q from to t => [16; n d; n src; q; from; to]
          | LinkChange d up => [17; n d; if up then 1 else 0]
          | QueueSet d => [18; n d]
          end).
Definition packet (uid : Z) : pkt := mkPkt uid [uid; 2; 3].
