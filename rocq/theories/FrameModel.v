(** Frames: model/mock-net-device.cc, AddHeader and the decapsulation in Receive.
    A packet is the list of its bytes (integers). The layouts of EthernetHeader,
    EthernetTrailer and LlcSnapHeader are those of ns-3 (not in /repo):
    destination, source, length/type (big endian); checksum, 4 bytes (little
    endian); aa aa 03 00 00 00 and the protocol number (big endian). *)
Require Import ZArith List Bool.
Require Import Verif.Base.
Import ListNotations.
Local Open Scope Z_scope.

Definition len {A : Type} (l : list A) : Z := Z.of_nat (length l).

Definition be16 (x : Z) : list Z := [x / 256 mod 256; x mod 256].
Definition mac_bytes (a : Z) : list Z :=
  [a / 1099511627776 mod 256; a / 4294967296 mod 256; a / 16777216 mod 256;
   a / 65536 mod 256; a / 256 mod 256; a mod 256].
Definition le32 (x : Z) : list Z :=
  [x mod 256; x / 256 mod 256; x / 65536 mod 256; x / 16777216 mod 256].

(** Reading them back, most significant byte first / last. *)
Definition of_be (l : list Z) : Z := fold_left (fun a b => a * 256 + b) l 0.
Definition of_le (l : list Z) : Z := fold_right (fun b a => a * 256 + b) 0 l.

Section Frame.
  (** EthernetTrailer's CRC, as an arbitrary function (a uint32_t). *)
  Variable crc : list Z -> Z.
  Definition crc32 (l : list Z) : Z := crc l mod 4294967296.

  (** model/mock-net-device.cc:198-252. [fcs] is Node::ChecksumEnabled. Without
      it CalcFcs does nothing and the trailer holds 0. Packet sizes are below
      2^32. *)
  Definition AddHeader (fcs : bool) (src dst protocolNumber : Z) (p : list Z) : list Z :=
    let p1 := [170; 170; 3; 0; 0; 0] ++ be16 protocolNumber ++ p in
    let lengthType := len p1 mod 65536 in
    let p2 := if len p1 <? 46 then p1 ++ repeat 0 (46 - length p1) else p1 in
    let p3 := mac_bytes dst ++ mac_bytes src ++ be16 lengthType ++ p2 in
    p3 ++ le32 (if fcs then crc32 p3 else 0).

  Inductive decap : Type :=
  | CrcError
  | Frame (payload : list Z) (protocol src dst : Z).

  (** model/mock-net-device.cc:462-499. RemoveHeader and RemoveTrailer stop the
      program on packets that are too short. *)
  Definition Decapsulate (fcs : bool) (packet : list Z) : res decap :=
    if len packet <? 4 then Abort ShortPacket else
    let body := firstn (length packet - 4) packet in
    let trailer := of_le (skipn (length packet - 4) packet) in
    if fcs && negb (crc32 body =? trailer) then Ok CrcError else
    if len body <? 14 then Abort ShortPacket else
    let dst := of_be (firstn 6 body) in
    let src := of_be (firstn 6 (skipn 6 body)) in
    let lengthType := of_be (firstn 2 (skipn 12 body)) in
    let p := skipn 14 body in
    if lengthType <=? 1500 then
      if len p <? lengthType then Abort AssertPadding else
      let padlen := len p - lengthType in
      if 46 <? padlen then Abort AssertPadding else
      let p' := firstn (Z.to_nat lengthType) p in
      if len p' <? 8 then Abort ShortPacket else
      Ok (Frame (skipn 8 p') (of_be (firstn 2 (skipn 6 p'))) src dst)
    else Ok (Frame p lengthType src dst).
End Frame.
