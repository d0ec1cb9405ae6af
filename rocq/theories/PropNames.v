(** C99: installation by name. *)
Require Import ZArith List Bool String Lia.
Require Import Verif.Base Verif.Num Verif.Vec Verif.FrameModel Verif.NetModel Verif.NetSpec Verif.NetSteps Verif.NetExamples
  Verif.HelperModel Verif.HelperSpec Verif.HelperProofs Verif.NamesModel.
Import ListNotations.
Local Open Scope Z_scope.
Local Open Scope string_scope.
Local Open Scope list_scope.
Local Open Scope res_scope.

Section Names.
  Context {N : Num}.
  Variable crc : list Z -> Z.
  Variable fcs : bool.
  Variable tx_time : Z -> Z -> Z.
  Variable has_mob : nat -> bool.
  Variable Find : string -> option nat.
  Notation run := (run crc fcs tx_time has_mob).
  Notation pointers := (install_pointers crc fcs tx_time has_mob).

  Lemma run_split : forall a b (w : world N), run w (a ++ b) = let* w1 := run w a in run w1 b.
  Proof.
    induction a as [|o a IH]; intros b w; [reflexivity|]. cbn [app NetModel.run]. destruct (step crc fcs tx_time has_mob w o); cbn [bind]; [apply IH|reflexivity|reflexivity].
  Qed.
  Lemma bind_assoc : forall A B C (x : res A) (f : A -> res B) (g : B -> res C), bind (bind x f) g = bind x (fun a => bind (f a) g).
  Proof. intros. destruct x; reflexivity. Qed.
  Lemma bind_ext : forall A B (x : res A) (f g : A -> res B), (forall a, f a = g a) -> bind x f = bind x g.
  Proof. intros A B x f g H. destruct x; cbn; auto. Qed.
  Lemma pointers_all : forall attrs q c nodes d id (w : world N),
    pointers attrs q c d (map Some nodes) id w = run w (devices_ops attrs q c d nodes id).
  Proof.
    intros attrs q c. induction nodes as [|n r IH]; intros d id w; [reflexivity|]. cbn [map install_pointers devices_ops]. rewrite run_split.
    apply bind_ext. intros w1. apply IH.
  Qed.
  Lemma pointers_missing : forall attrs q c nodes rest d id (w : world N),
    pointers attrs q c d (map Some nodes ++ None :: rest) id w = let* _ := run w (devices_ops attrs q c d nodes id) in UB NullDeref.
  Proof.
    intros attrs q c nodes rest. induction nodes as [|n r IH]; intros d id w; [reflexivity|]. cbn [map app install_pointers devices_ops]. rewrite run_split, bind_assoc.
    apply bind_ext. intros w1. apply IH.
  Qed.
  Lemma found_or_not : forall names,
    (exists nodes, map Find names = map Some nodes /\ List.length nodes = List.length names) \/
    (exists before name after nodes, names = before ++ name :: after /\ map Find before = map Some nodes /\ Find name = None).
  Proof.
    induction names as [|x r IH]; [left; exists []; split; reflexivity|]. destruct (Find x) as [n|] eqn:E.
    - destruct IH as [(nodes & E2 & L)|(b & m & a & nodes & -> & E2 & E3)].
      + left. exists (n :: nodes). cbn. rewrite E, E2, L. split; reflexivity.
      + right. exists (x :: b), m, a, (n :: nodes). cbn. rewrite E, E2. auto.
    - right. exists [], x, r, []. auto.
  Qed.
End Names.

(** Names of nodes that exist: the same as Install on those nodes, in order, with a device for
    every time that a name is given. *)
Theorem C99_isl_names : forall (N : Num) crc fcs tx_time has_mob Find (h : isl_helper N) c d names nodes id w,
  map Find names = map Some nodes ->
  isl_install_names crc fcs tx_time has_mob Find h c d names id w = run crc fcs tx_time has_mob w (isl_install h c d nodes id).
Proof.
  intros N crc fcs tx_time has_mob Find h c d names nodes id w E. unfold isl_install_names, isl_install. rewrite E, run_split.
  apply bind_ext. intros w1. apply pointers_all.
Qed.
Print Assumptions C99_isl_names.
Theorem C99_leo_names : forall (N : Num) crc fcs tx_time has_mob pos seconds Find (h : leo_helper N) c d satellites stations sats gnds id w,
  map Find satellites = map Some sats -> map Find stations = map Some gnds ->
  leo_install_names crc fcs tx_time has_mob pos seconds Find h c d satellites stations id w =
  run crc fcs tx_time has_mob w (leo_install pos seconds h c d sats gnds id).
Proof.
  intros N crc fcs tx_time has_mob pos seconds Find h c d satellites stations sats gnds id w E1 E2. unfold leo_install_names, leo_install.
  assert (L : List.length satellites = List.length sats) by (rewrite <- (map_length Find), E1, map_length; reflexivity).
  rewrite E1, E2, L, app_assoc. match goal with |- bind (run _ _ _ _ _ ?x) _ = _ => generalize x end. intros ops. rewrite run_split.
  apply bind_ext. intros w1. rewrite run_split, pointers_all. apply bind_ext. intros w2. apply pointers_all.
Qed.
Print Assumptions C99_leo_names.

(** A name that no node has: a null pointer is dereferenced, always, after the devices of the
    names before it have been installed; otherwise the installation succeeds. *)
Theorem C99_isl_missing : forall (N : Num) crc fcs tx_time has_mob Find (h : isl_helper N) c d names id w,
  w_chan w c = new_chan IslChannel -> (forall i, (i < List.length names)%nat -> d_cfg (w_dev w (d + i)) = new_cfg false) ->
  0 <= id -> id + Z.of_nat (List.length names) < 2 ^ 48 ->
  match isl_install_names crc fcs tx_time has_mob Find h c d names id w with
  | Ok _ => Forall (fun x => Find x <> None) names
  | UB k => k = NullDeref /\ Exists (fun x => Find x = None) names
  | Abort _ => False
  end.
Proof.
  intros N crc fcs tx_time has_mob Find h c d names id w HC HD I1 I2.
  pose proof (fun nodes => isl_install_spec crc fcs tx_time has_mob (fun _ _ => @V N (nZ N 0) (nZ N 0) (nZ N 0)) h c d nodes id w HC) as S.
  destruct (found_or_not Find names) as [(nodes & E & L)|(b & m & a & nodes & -> & E & M)].
  - rewrite (C99_isl_names N crc fcs tx_time has_mob Find h c d names nodes id w E).
    destruct (S nodes) as (w' & R & _); [intros i Hi; apply HD; lia|lia|lia|]. rewrite R.
    clear - E. revert nodes E. induction names as [|x r IH]; intros nodes E; [constructor|]. destruct nodes as [|n nodes]; [discriminate|]. injection E as E1 E2.
    constructor; [congruence|eapply IH; exact E2].
  - unfold isl_install_names. rewrite map_app, E. cbn [map]. rewrite M. assert (L : List.length nodes = List.length b) by (rewrite <- (map_length Some), <- E, map_length; reflexivity).
    rewrite app_length in *. cbn [List.length] in *.
    destruct (S nodes) as (w' & R & _); [intros i Hi; apply HD; lia|lia|lia|]. unfold isl_install in R. rewrite run_split in R.
    destruct (run crc fcs tx_time has_mob w (map (channel_op c) (ih_chan h))) as [w1| |]; try discriminate R. cbn [bind] in *. rewrite pointers_missing, R. cbn [bind].
    split; [reflexivity|]. apply Exists_app. right. constructor. exact M.
Qed.
Print Assumptions C99_isl_missing.

Theorem C99_leo_missing : forall (N : Num) crc fcs tx_time has_mob pos seconds Find (h : leo_helper N) c d satellites stations id w,
  w_chan w c = new_chan LeoChannel -> (forall i, (i < List.length (satellites ++ stations))%nat -> d_cfg (w_dev w (d + i)) = new_cfg true) ->
  0 <= id -> id + Z.of_nat (List.length (satellites ++ stations)) < 2 ^ 48 ->
  match leo_install_names crc fcs tx_time has_mob pos seconds Find h c d satellites stations id w with
  | Ok _ => Forall (fun x => Find x <> None) (satellites ++ stations)
  | UB k => k = NullDeref /\ Exists (fun x => Find x = None) (satellites ++ stations)
  | Abort _ => False
  end.
Proof.
  intros N crc fcs tx_time has_mob pos seconds Find h c d sats gnds id w HC HD I1 I2. rewrite app_length in HD, I2.
  pose proof (fun s g => leo_install_spec crc fcs tx_time has_mob pos seconds h c d s g id w HC) as S.
  assert (ALL : forall names nodes, map Find names = map Some nodes -> Forall (fun x => Find x <> None) names).
  { clear. induction names as [|x r IH]; intros nodes E; [constructor|]. destruct nodes as [|n nodes]; [discriminate|]. injection E as E1 E2.
    constructor; [congruence|eapply IH; exact E2]. }
  assert (LEN : forall names nodes, map Find names = map Some nodes -> List.length nodes = List.length names).
  { intros names nodes E. rewrite <- (map_length Some), <- E, map_length. reflexivity. }
  destruct (found_or_not Find sats) as [(s & E & L)|(b & m & a & s & -> & E & M)].
  - destruct (found_or_not Find gnds) as [(g & E2 & L2)|(b & m & a & g & -> & E2 & M)].
    + rewrite (C99_leo_names N crc fcs tx_time has_mob pos seconds Find h c d sats gnds s g id w E E2).
      destruct (S s g) as (w' & R & _); [intros i Hi; rewrite app_length in Hi; apply HD; lia|lia|rewrite app_length; lia|]. rewrite R.
      apply Forall_app. split; eapply ALL; eassumption.
    + pose proof (LEN _ _ E2) as L2. rewrite app_length in *. cbn [List.length] in *.
      destruct (S s g) as (w' & R & _); [intros i Hi; rewrite app_length in Hi; apply HD; lia|lia|rewrite app_length; lia|].
      unfold leo_install_names. unfold leo_install in R. rewrite app_assoc, run_split in R.
      match goal with |- context [bind ?x _] => destruct x as [w1| |] end; try discriminate R. cbn [bind] in *.
      rewrite E, pointers_all. rewrite run_split in R. destruct (run crc fcs tx_time has_mob w1 _) as [w2| |]; try discriminate R. cbn [bind] in *.
      rewrite map_app, E2. cbn [map]. rewrite M, pointers_missing, <- L, R. cbn [bind].
      split; [reflexivity|]. apply Exists_app. right. apply Exists_app. right. constructor. exact M.
  - pose proof (LEN _ _ E) as L. rewrite app_length in *. cbn [List.length] in *.
    destruct (S s []) as (w' & R & _); [intros i Hi; rewrite app_nil_r in Hi; apply HD; lia|lia|rewrite app_nil_r; lia|].
    unfold leo_install_names. unfold leo_install in R. rewrite app_assoc, run_split in R.
    match goal with |- context [bind ?x _] => destruct x as [w1| |] end; try discriminate R. cbn [bind] in *.
    rewrite run_split in R. rewrite map_app, E. cbn [map]. rewrite M, pointers_missing. destruct (run crc fcs tx_time has_mob w1 _) as [w2| |]; try discriminate R. cbn [bind].
    split; [reflexivity|]. rewrite <- app_assoc. apply Exists_app. right. constructor. exact M.
Qed.
Print Assumptions C99_leo_missing.

Definition nm_pos (n : nat) (t : Z) : vec NumZ := @V NumZ (Z.of_nat n) 0 0.
Definition nm_seconds (x : num NumZ) : Z := Z.abs x.
Definition nm_find (s : string) : option nat := if String.eqb s "a" then Some 10%nat else if String.eqb s "b" then Some 11%nat else None.
(** "a" twice: two devices on node 10. *)
Example ex_C99 :
  let w := initial (N := NumZ) (fun _ => false) (fun _ => IslChannel) in
  holds (fun w => map (fun d => g_node (d_cfg (w_dev w d))) [0; 1; 2]%nat = [Some 10; Some 11; Some 10]%nat)
    (isl_install_names ex_crc true ex_tx ex_mob nm_find (new_isl_helper nm_pos nm_seconds) 0 0 ["a"; "b"; "a"] 0 w) /\
  isl_install_names ex_crc true ex_tx ex_mob nm_find (new_isl_helper nm_pos nm_seconds) 0 0 ["a"; "c"] 0 w = UB NullDeref /\
  w_chan w 0%nat = new_chan IslChannel /\ (forall i, d_cfg (w_dev w (0 + i)) = new_cfg false).
Proof. split; [vm_compute; reflexivity|]. split; [vm_compute; reflexivity|]. split; [reflexivity|intros; reflexivity]. Qed.
