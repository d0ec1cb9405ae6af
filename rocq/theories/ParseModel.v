(** Text of locations and orbits: model/leo-lat-long.cc:23-38, model/leo-orbit.cc:23-40,
    and the files read by helper/ground-node-helper.cc:53-77 and
    helper/leo-orbit-node-helper.cc:72-91.

    The standard library's formatted input and output (libstdc++, "C" locale,
    default flags and precision) is modelled on characters. The conversion between
    decimal numbers and doubles is a parameter. *)
Require Import ZArith QArith Qreduction List Bool Ascii.
Require Import Verif.Base Verif.Num Verif.Vec Verif.MobilityModel Verif.AllocModel.
Import ListNotations.
Local Open Scope Z_scope.

(** std::isspace *)
Definition is_space (c : ascii) : bool :=
  let n := nat_of_ascii c in (Nat.leb 9 n && Nat.leb n 13) || Nat.eqb n 32.
Definition is_digit (c : ascii) : bool :=
  let n := nat_of_ascii c in Nat.leb 48 n && Nat.leb n 57.
Definition digit_value (c : ascii) : Z := Z.of_nat (nat_of_ascii c) - 48.
Definition is_sign (c : ascii) : bool := Ascii.eqb c "+" || Ascii.eqb c "-".
Definition is_exp (c : ascii) : bool := Ascii.eqb c "e" || Ascii.eqb c "E".

(** An input stream: the characters that are left and whether failbit is set. (At
    the end of the text eofbit makes the next extraction fail, as the missing
    character does.) *)
Record stream : Type := mkStream { st_text : list ascii; st_failed : bool }.
Definition set_failed (s : stream) : stream := mkStream (st_text s) true.

(** The sentry of formatted input *)
Fixpoint skip_ws (t : list ascii) : list ascii :=
  match t with
  | c :: r => if is_space c then skip_ws r else t
  | [] => []
  end.

(** The characters num_get::do_get takes for a double (_M_extract_float): digits, a
    decimal point unless there was one or an exponent, an exponent letter after a
    digit of the mantissa, signs at the beginning and after the letter. Repeated
    leading zeros, which are not kept, are kept here. *)
Fixpoint scan_body (mant dec sci sgn : bool) (t : list ascii) : list ascii * list ascii :=
  match t with
  | [] => ([], [])
  | c :: r =>
      if is_digit c then let (a, b) := scan_body true dec sci false r in (c :: a, b)
      else if Ascii.eqb c "." && negb dec && negb sci then
        let (a, b) := scan_body mant true sci false r in (c :: a, b)
      else if is_exp c && negb sci && mant then
        let (a, b) := scan_body mant dec true true r in (c :: a, b)
      else if is_sign c && sgn then
        let (a, b) := scan_body mant dec sci false r in (c :: a, b)
      else ([], t)
  end.
Definition scan_float (t : list ascii) : list ascii * list ascii :=
  match t with
  | c :: r => if is_sign c then let (a, b) := scan_body false false false false r in (c :: a, b)
              else scan_body false false false false t
  | [] => ([], [])
  end.

Fixpoint take_digits (t : list ascii) : list ascii * list ascii :=
  match t with
  | c :: r => if is_digit c then let (a, b) := take_digits r in (c :: a, b) else ([], t)
  | [] => ([], [])
  end.
Definition take_sign (t : list ascii) : bool * list ascii :=
  match t with
  | c :: r => if Ascii.eqb c "-" then (true, r) else if Ascii.eqb c "+" then (false, r) else (false, t)
  | [] => (false, [])
  end.
Definition number (acc : Z) (ds : list ascii) : Z := fold_left (fun v c => 10 * v + digit_value c) ds acc.

(** strtod, which has to take all of its argument: sign, mantissa, decimal exponent. *)
Definition strtod (t : list ascii) : option (bool * Z * Z) :=
  let (neg, t1) := take_sign t in
  let (a, t2) := take_digits t1 in
  let (b, t3) := match t2 with
                 | c :: r => if Ascii.eqb c "." then take_digits r else ([], t2)
                 | [] => ([], [])
                 end in
  match (a ++ b)%list with
  | [] => None
  | _ =>
      match t3 with
      | [] => Some (neg, number 0 (a ++ b)%list, - Z.of_nat (length b))
      | c :: r =>
          if is_exp c then
            let (eneg, t4) := take_sign r in
            match take_digits t4 with
            | (d :: ds, []) =>
                let x := number 0 (d :: ds) in
                Some (neg, number 0 (a ++ b)%list, (if eneg then - x else x) - Z.of_nat (length b))
            | _ => None
            end
          else None
      end
  end.

(** The rational number m * 10^e *)
Definition decimal (m e : Z) : Q := Qred (inject_Z m * Qpower (10 # 1) e).

Section Streams.
  Variable D : Type.
  (** The double nearest to the absolute value, with the sign; none if it overflows. *)
  Variable to_double : bool -> Q -> option D.
  (** What a failing conversion stores; uninitialised chars. *)
  Variable failed_double : list ascii -> D.
  Variable junk_char : ascii.

  Definition convert (t : list ascii) : option D :=
    match strtod t with
    | Some (neg, m, e) => to_double neg (decimal m e)
    | None => None
    end.

  (** is >> double *)
  Definition get_double (s : stream) (old : D) : D * stream :=
    if st_failed s then (old, s) else
    match skip_ws (st_text s) with
    | [] => (old, mkStream [] true)
    | t => let (tok, rest) := scan_float t in
           match convert tok with
           | Some x => (x, mkStream rest false)
           | None => (failed_double tok, mkStream rest true)
           end
    end.

  (** is >> char *)
  Definition get_char (s : stream) (old : ascii) : ascii * stream :=
    if st_failed s then (old, s) else
    match skip_ws (st_text s) with
    | [] => (old, mkStream [] true)
    | c :: r => (c, mkStream r false)
    end.

  (** is >> uint16_t (_M_extract_int): an optional sign and decimal digits; a
      negative number wraps around; a number that is too large fails. *)
  Definition get_u16 (s : stream) (old : Z) : Z * stream :=
    if st_failed s then (old, s) else
    match skip_ws (st_text s) with
    | [] => (old, mkStream [] true)
    | t =>
        let (neg, t1) := take_sign t in
        let (ds, rest) := take_digits t1 in
        match ds with
        | [] => (0, mkStream rest true)
        | _ => let x := number 0 ds in
               if 65535 <? x then (65535, mkStream rest true)
               else (if neg then (- x) mod 65536 else x, mkStream rest false)
        end
    end.
End Streams.
Arguments convert {D}. Arguments get_double {D}.

Section Records.
  Variable N : Num.
  Variable to_double : bool -> Q -> option (num N).
  Variable failed_double : list ascii -> num N.
  Variable junk_char : ascii.

  (** leo-lat-long.cc:29-38 *)
  Definition read_latlong (s : stream) (l : latlong N) : latlong N * stream :=
    let '(lat, s1) := get_double to_double failed_double s (ll_lat l) in
    let '(c1, s2) := get_char s1 junk_char in
    let '(lon, s3) := get_double to_double failed_double s2 (ll_lon l) in
    (mkLatLong lat lon, if Ascii.eqb c1 ":" then s3 else set_failed s3).

  (** leo-orbit.cc:29-40 *)
  Definition read_orbit (s : stream) (o : leoorbit N) : leoorbit N * stream :=
    let '(alt, s1) := get_double to_double failed_double s (lo_alt o) in
    let '(c1, s2) := get_char s1 junk_char in
    let '(inc, s3) := get_double to_double failed_double s2 (lo_inc o) in
    let '(c2, s4) := get_char s3 junk_char in
    let '(planes, s5) := get_u16 s4 (lo_planes o) in
    let '(c3, s6) := get_char s5 junk_char in
    let '(sats, s7) := get_u16 s6 (lo_sats o) in
    (mkLeoOrbit alt inc planes sats,
     if Ascii.eqb c1 ":" && Ascii.eqb c2 ":" && Ascii.eqb c3 ":" then s7 else set_failed s7).

  (** while (stream >> x): the records and the stream afterwards. *)
  Inductive extracts {A : Type} (rd : stream -> A -> A * stream) : stream -> A -> list A -> stream -> Prop :=
  | extracts_end : forall s a b s', rd s a = (b, s') -> st_failed s' = true -> extracts rd s a [] s'
  | extracts_next : forall s a b s1 l s', rd s a = (b, s1) -> st_failed s1 = false -> extracts rd s1 b l s' ->
      extracts rd s a (b :: l) s'.

  (** ifstream::open; a file that cannot be opened sets failbit. *)
  Definition open_file (contents : option (list ascii)) : stream :=
    match contents with Some t => mkStream t false | None => mkStream [] true end.

  (** ground-node-helper.cc:53-77 *)
  Definition InstallGroundFile (contents : option (list ascii)) (nodes : list (vec N)) : Prop :=
    exists l s', extracts read_latlong (open_file contents) (mkLatLong (nZ N 0) (nZ N 0)) l s' /\ nodes = InstallLocations l.

  Variable precision : Z.
  Variable junk : vec N.
  (** leo-orbit-node-helper.cc:72-91 *)
  Definition InstallOrbitFile (now : Z) (contents : option (list ascii)) (nodes : res (list (mob N))) : Prop :=
    exists l s', extracts read_orbit (open_file contents) (mkLeoOrbit (nZ N 0) (nZ N 0) 0 0) l s' /\ nodes = InstallOrbits precision junk now l.
End Records.
Arguments read_latlong {N}. Arguments read_orbit {N}.

(** ** Output *)
Definition digit_char (d : Z) : ascii := ascii_of_nat (Z.to_nat (48 + d)).
Fixpoint show_digits (fuel : nat) (n : Z) (acc : list ascii) : list ascii :=
  match fuel with
  | O => acc
  | S f => if n <? 10 then digit_char n :: acc else show_digits f (n / 10) (digit_char (n mod 10) :: acc)
  end.
(** The decimal digits of a natural number. *)
Definition show (n : Z) : list ascii := show_digits (S (Z.to_nat (Z.log2 n))) n [].

(** printf("%g") of the number (-1)^neg * m * 10^e with at most six significant
    digits, where m is 0 or not divisible by ten. *)
Definition show_g (neg : bool) (m e : Z) : list ascii :=
  ((if neg then ["-"%char] else []) ++
   if Z.eqb m 0 then ["0"%char]
   else
     let ds := show m in
     let k := Z.of_nat (length ds) in
     let x := e + k - 1 in
     if (-4 <=? x) && (x <? 6) then
       if 0 <=? e then ds ++ repeat "0"%char (Z.to_nat e)
       else if 0 <=? x then firstn (Z.to_nat (x + 1)) ds ++ "."%char :: skipn (Z.to_nat (x + 1)) ds
       else "0"%char :: "."%char :: repeat "0"%char (Z.to_nat (- x - 1)) ++ ds
     else
       firstn 1 ds ++ (if 1 <? k then "."%char :: skipn 1 ds else []) ++
       "e"%char :: (if x <? 0 then "-"%char else "+"%char) ::
       (if Z.abs x <? 10 then "0"%char :: show (Z.abs x) else show (Z.abs x)))%list.

Section Output.
  Variable N : Num.
  (** A double rounded to six significant digits: sign, digits, exponent. *)
  Variable six_digits : num N -> bool * Z * Z.

  (** os << double *)
  Definition put_double (x : num N) : list ascii := let '(neg, m, e) := six_digits x in show_g neg m e.
  (** leo-lat-long.cc:23-27 *)
  Definition print_latlong (l : latlong N) : list ascii :=
    (put_double (ll_lat l) ++ ":"%char :: put_double (ll_lon l))%list.
  (** leo-orbit.cc:23-27 *)
  Definition print_orbit (o : leoorbit N) : list ascii :=
    (put_double (lo_alt o) ++ ":"%char :: put_double (lo_inc o) ++ ":"%char :: show (lo_planes o) ++ ":"%char :: show (lo_sats o))%list.
End Output.
Arguments put_double {N}. Arguments print_latlong {N}. Arguments print_orbit {N}.
