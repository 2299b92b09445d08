(** Model of utils/BigNumber.{h,cpp} in its 64 bit configuration (HAS_INT128,
    HAS_INT128_DIV of int128.h: gcc on x86-64), little-endian machine.

    A number is the vector of its digits, least significant first.  The inner
    loops over arrays are recursions over lists: a pointer [&dst[i]] is the list
    from position [i] on.  [u128] and [u64] are the wrap-arounds of the machine
    words; signed 128 bit overflow is undefined. *)
From Verif Require Import Base.

(** digit_base, BigNumber.h 14. *)
Notation base := 18446744073709551616 (only parsing).
(** Helper of [make_dword], int128.h 21-34, 70-73. *)
Definition u128 (v : Z) : Z := v mod 340282366920938463463374607431768211456.

(** int128.h 21-34, 70-73: lo_word, hi_word (of the value converted to
    uint128_t), mul_words, make_dword. *)
Definition lo (v : Z) : Z := v mod base.
(** Also int128.h 21-34, 70-73. *)
Definition hi (v : Z) : Z := v / base mod base.
(** Also int128.h 21-34, 70-73. *)
Definition make_dword (l h : Z) : Z := Z.lor l (u128 (Z.shiftl h 64)).

(** The value converted to int128_t. For [divDigit], BigNumber.cpp:400-416. *)
Definition s128 (v : Z) : Z :=
  let w := u128 v in
  if w <? 170141183460469231731687303715884105728 then w
  else w - 340282366920938463463374607431768211456.
(** Helper of [divDigit], BigNumber.cpp:400-416. *)
Definition in128 (v : Z) : bool :=
  (-170141183460469231731687303715884105728 <=? v) && (v <? 170141183460469231731687303715884105728).

(** [while (len > 0 && !a[len - 1]) len--;], BigNumber.cpp:252-253, 299-303, 382-386: the
    digits without the leading zeros. *)
Fixpoint trim (l : list Z) : list Z :=
  match l with
  | [] => []
  | x :: l' => match trim l' with
               | [] => if x =? 0 then [] else [x]
               | t => x :: t
               end
  end.

(** The inner loop of Mul_h and Square_h, BigNumber.cpp:307-316 and 259-268, with the store
    of the last carry: [dst] starts at the column of the first product. *)
Fixpoint mulRow (x : Z) (b dst : list Z) (c : Z) : list Z :=
  match b, dst with
  | y :: b', d :: dst' =>
    let c1 := u128 (c + x * y) in
    let c2 := u128 (c1 + d) in
    lo c2 :: mulRow x b' dst' (Z.shiftr c2 64)
  | [], _ :: dst' => lo c :: dst'
  | _, [] => []
  end.

(** Mul_h, BigNumber.cpp:305-317. *)
Fixpoint mulLoop (a b dst : list Z) : list Z :=
  match a with
  | [] => dst
  | x :: a' => match mulRow x b dst 0 with
               | [] => []
               | d :: rest => d :: mulLoop a' b rest
               end
  end.
(** Mul_h, BigNumber.cpp:297-318. *)
Definition Mul_h (a b dst : list Z) : list Z := mulLoop (trim a) (trim b) dst.

(** Square_h, BigNumber.cpp:257-269; [dst] starts at column 2*i + 1. *)
Fixpoint sqCross (a dst : list Z) : list Z :=
  match a with
  | [] => dst
  | x :: a' => match mulRow x a' dst 0 with
               | d0 :: d1 :: rest => d0 :: d1 :: sqCross a' rest
               | r => r
               end
  end.
(** BigNumber.cpp:272-278, for [n] columns. *)
Fixpoint sqDouble (n : nat) (dst : list Z) (c : Z) : list Z :=
  match n, dst with
  | S n', d :: dst' =>
    let c1 := Z.lor c (u128 (Z.shiftl d 1)) in
    lo c1 :: sqDouble n' dst' (Z.shiftr c1 64)
  | _, _ => dst
  end.
(** BigNumber.cpp:281-294. *)
Fixpoint sqAdd (a dst : list Z) (c : Z) : list Z :=
  match a, dst with
  | x :: a', e :: o :: rest =>
    let c1 := u128 (u128 (c + x * x) + e) in
    let c2 := u128 (Z.shiftr c1 64 + o) in
    lo c1 :: lo c2 :: sqAdd a' rest (Z.shiftr c2 64)
  | _, _ => dst
  end.
(** Square_h, BigNumber.cpp:250-295. *)
Definition Square_h (a0 dst : list Z) : list Z :=
  let a := trim a0 in
  match dst with
  | [] => []
  | d0 :: dst' =>
    sqAdd a (d0 :: sqDouble (2 * length a - 1) (sqCross a dst') 0) 0
  end.

(** dbi_mul, BigNumber.cpp:235-248. *)
Definition dbi_mul (a1 a2 : list Z) : list Z :=
  let zero := repeat 0 (length a1 + length a2) in
  if list_eqb a1 a2 then Square_h a1 zero else Mul_h a1 a2 zero.

(** Mul, BigNumber.cpp:576-589, with dbi2bi, 528-537: the low half. *)
Definition Mul (a1 a2 : list Z) : option (list Z) :=
  if negb (Nat.eqb (length a1) (length a2)) then None
  else Some (firstn (length a1) (dbi_mul a1 a2)).

(** Compare, BigNumber.cpp:186-215, from index [n - 1] down. *)
Fixpoint cmpLoop (n : nat) (a b : list Z) : Z :=
  match n with
  | O => 0
  | S i =>
    if Nat.leb (length a) i then if negb (nth i b 0 =? 0) then -1 else cmpLoop i a b
    else if Nat.leb (length b) i then if negb (nth i a 0 =? 0) then 1 else cmpLoop i a b
    else if nth i a 0 <? nth i b 0 then -1
    else if nth i b 0 <? nth i a 0 then 1
    else cmpLoop i a b
  end.
(** Also BigNumber.cpp:186-215. *)
Definition Compare (a b : list Z) : Z := cmpLoop (Nat.max (length a) (length b)) a b.

(** Add_h, BigNumber.cpp:495-506: the digits and the carry. *)
Fixpoint addLoop (a b : list Z) (c : Z) : list Z * Z :=
  match a, b with
  | x :: a', y :: b' =>
    let c1 := u128 (u128 (c + x) + y) in
    let '(r, c') := addLoop a' b' (Z.shiftr c1 64) in (lo c1 :: r, c')
  | _, _ => ([], lo c)
  end.
(** Also BigNumber.cpp:495-506. *)
Definition Add_h (a b : list Z) : list Z * Z := addLoop a b 0.

(** Sub_h, BigNumber.cpp:508-519; the shift of a negative number is arithmetic. *)
Fixpoint subLoop (a b : list Z) (c : Z) : list Z * Z :=
  match a, b with
  | x :: a', y :: b' =>
    let c1 := c + x - y in
    let '(r, c') := subLoop a' b' (Z.shiftr c1 64) in (lo c1 :: r, c')
  | _, _ => ([], if lo c =? 0 then 0 else 1)
  end.
(** Also BigNumber.cpp:508-519. *)
Definition Sub_h (a b : list Z) : list Z * Z := subLoop a b 0.

(** Add, Sub, BigNumber.cpp:539-557; None is the -1 of operands of different length. *)
Definition Add (a b : list Z) : option (list Z * Z) :=
  if negb (Nat.eqb (length a) (length b)) then None else Some (Add_h a b).
(** Also BigNumber.cpp:539-557. *)
Definition Sub (a b : list Z) : option (list Z * Z) :=
  if negb (Nat.eqb (length a) (length b)) then None else Some (Sub_h a b).

(** shift_left, BigNumber.cpp:320-339; one digit longer. *)
Fixpoint shlLoop (shift prev : Z) (l : list Z) : list Z :=
  match l with
  | [] => [Z.shiftr prev (64 - shift)]
  | x :: l' => Z.lor (u64 (Z.shiftl x shift)) (Z.shiftr prev (64 - shift)) :: shlLoop shift x l'
  end.
(** Also BigNumber.cpp:320-339. *)
Definition shift_left (shift : Z) (l : list Z) : list Z :=
  if shift =? 0 then l ++ [0] else shlLoop shift 0 l.

(** shift_right, BigNumber.cpp:341-358. *)
Fixpoint shrLoop (shift : Z) (l : list Z) : list Z :=
  match l with
  | [] => []
  | x :: l' =>
    match l' with
    | [] => [Z.shiftr x shift]
    | y :: _ => Z.lor (Z.shiftr x shift) (u64 (Z.shiftl y (64 - shift))) :: shrLoop shift l'
    end
  end.
(** Also BigNumber.cpp:341. *)
Definition shift_right (shift : Z) (l : list Z) : list Z :=
  if shift =? 0 then l else shrLoop shift l.

(** MsbPos, BigNumber.cpp:621-644, one round, and the rounds i = 5 .. 0. *)
Definition msbRound (mask s : Z) (vr : Z * Z) : Z * Z :=
  let '(v, r) := vr in
  if Z.land v mask =? 0 then (v, r) else (Z.shiftr v s, Z.lor r s).
(** Also BigNumber.cpp:621-644, 5. *)
Definition MsbPos (v : Z) : Z :=
  snd (msbRound 2 1 (msbRound 12 2 (msbRound 240 4 (msbRound 65280 8
      (msbRound 4294901760 16 (msbRound 18446744069414584320 32 (v, 0))))))).

(** The single digit division, BigNumber.cpp:400-416, from the most significant digit down:
    the quotient digits and the low word of [k]. *)
Fixpoint divDigit (a : list Z) (b0 : Z) : res (list Z * Z) :=
  match a with
  | [] => Ok ([], 0)
  | x :: a' =>
    bind (divDigit a' b0) (fun '(q, k0) =>
      let k := s128 (make_dword x k0) in
      let Q := u128 k / b0 in
      let k' := k - u64 (lo Q * b0) in
      if in128 k' then Ok (lo Q :: q, lo k') else UB)
  end.

(** The correction loop, BigNumber.cpp:445-451; [None] if it takes more than [fuel] rounds. *)
Fixpoint adjust (fuel : nat) (divisor divisorLoW dividendLoW Q R : Z) : option Z :=
  if (base <=? Q) || (make_dword dividendLoW (lo R) <? lo Q * divisorLoW) then
    match fuel with
    | O => None
    | S fuel' =>
      let Q1 := u128 (Q - 1) in
      let R1 := u128 (R + divisor) in
      if base <=? R1 then Some Q1 else adjust fuel' divisor divisorLoW dividendLoW Q1 R1
    end
  else Some Q.

(** Multiply and subtract, BigNumber.cpp:456-468: the digits from position [j] on and the
    last subProd. *)
Fixpoint mulSub (q : Z) (pb win : list Z) (carry : Z) : list Z * Z :=
  match pb, win with
  | y :: pb', w :: win' =>
    let mulProd := q * y in
    let subProd := w - lo mulProd - carry in
    let '(r, s) := mulSub q pb' win' (u64 (hi mulProd - hi subProd)) in
    (lo subProd :: r, s)
  | [], w :: win' => let subProd := w - carry in (lo subProd :: win', subProd)
  | _, [] => ([], 0)
  end.

(** Add back, BigNumber.cpp:473-477: [Add_h(&pa[j], pb, lenB); pa[j + lenB]++]. *)
Definition addBack (pb win : list Z) : list Z :=
  let n := length pb in
  fst (Add_h (firstn n win) pb) ++
  match skipn n win with
  | [] => []
  | w :: rest => u64 (w + 1) :: rest
  end.

(** The body of the loop, BigNumber.cpp:437-487, on the digits from position [j] on; [pb] is
    the lenB low digits of normB.  The quotient digit and the digits. *)
Definition divStep (pb win : list Z) : option (Z * list Z) :=
  let lenB := length pb in
  let divisor := nth (lenB - 1) pb 0 in
  let divisorLoW := nth (lenB - 2) pb 0 in
  let dividend := make_dword (nth (lenB - 1) win 0) (nth lenB win 0) in
  let dividendLoW := nth (lenB - 2) win 0 in
  match adjust 2 divisor divisorLoW dividendLoW (dividend / divisor) (dividend mod divisor) with
  | None => None
  | Some Q =>
    let '(win1, subProd) := mulSub (lo Q) pb win 0 in
    Some (if subProd <? 0 then (lo (u128 (Q - 1)), addBack pb win1) else (lo Q, win1))
  end.

(** The loop on j from [n - 1] down to 0, BigNumber.cpp:437-487; ptrQ only below lenQ. *)
Fixpoint divLoop (n : nat) (pb pa Q : list Z) : option (list Z * list Z) :=
  match n with
  | O => Some (pa, Q)
  | S j =>
    match divStep pb (skipn j pa) with
    | None => None
    | Some (q, win) => divLoop j pb (firstn j pa ++ win) (if Nat.ltb j (length Q) then upd j q Q else Q)
    end
  end.

(** The outcome of dbi_div: false, or true with quotient and remainder. For [dbi_div], BigNumber.cpp:360-493. *)
Inductive divRes := DFalse (q r : list Z) | DTrue (q r : list Z).

(** Helper of [dbi_div], BigNumber.cpp:360-493. *)
Definition pad (n : nat) (l : list Z) : list Z := l ++ repeat 0 (n - length l).

(** dbi_div, BigNumber.cpp:360-493; UB also stands for a correction loop that does not end,
    which does not happen. *)
Definition dbi_div (dblA b : list Z) : res divRes :=
  let n := length b in
  let zero := repeat 0 n in
  if negb (Nat.eqb (length dblA) (2 * n)) then Ok (DFalse [] [])
  else
    let A := trim dblA in
    let B := trim b in
    let lenA := length A in
    let lenB := length B in
    if Nat.eqb lenB 0 then Ok (DFalse zero zero)
    else if Nat.ltb lenA lenB || (Compare dblA b =? -1) then Ok (DTrue zero (pad n A))
    else if Nat.eqb lenB 1 then
      bind (divDigit A (nth 0 B 0)) (fun '(q, k) =>
        Ok (DTrue (pad n (firstn n q)) (pad n [k])))
    else
      let shift := 63 - MsbPos (nth (lenB - 1) B 0) in
      let pa := shift_left shift A in
      let pb := firstn lenB (shift_left shift B) in
      match divLoop (S (lenA - lenB)) pb pa zero with
      | None => UB
      | Some (pa', Q) => Ok (DTrue Q (pad n (shift_right shift (firstn lenB pa'))))
      end.

(** Div, BigNumber.cpp:559-574, with bi2dbi, 521-526. *)
Definition Div (a b : list Z) : res divRes :=
  if negb (Nat.eqb (length a) (length b)) then Ok (DFalse [] [])
  else dbi_div (a ++ repeat 0 (length a)) b.

(** Mulm, BigNumber.cpp:217-233, for operands of the length of [m]; Powm ignores the result
    [false], so the remainder counts in both cases. *)
Definition Mulm (a1 a2 m : list Z) : res (list Z) :=
  bind (dbi_div (dbi_mul a1 a2) m) (fun d => match d with DFalse _ r | DTrue _ r => Ok r end).

(** The bits of one digit, BigNumber.cpp:144-155; [last] is [i == cnt]. *)
Fixpoint powBits (n : nat) (last : bool) (digit : Z) (r x m : list Z) : res (list Z * list Z) :=
  match n with
  | O => Ok (r, x)
  | S n' =>
    bind (if Z.odd digit then Mulm r x m else Ok r) (fun r1 =>
      let d := Z.shiftr digit 1 in
      if last && (d =? 0) then Ok (r1, x)
      else bind (Mulm x x m) (fun x1 => powBits n' last d r1 x1 m))
  end.
(** BigNumber.cpp:142-156 *)
Fixpoint powDigits (e : list Z) (r x m : list Z) : res (list Z) :=
  match e with
  | [] => Ok r
  | d :: e' =>
    bind (powBits 64 (match e' with [] => true | _ => false end) d r x m) (fun '(r1, x1) =>
      powDigits e' r1 x1 m)
  end.

(** Set(uint32_t), BigNumber.cpp:160-167, of a number of [n] digits. *)
Definition ofSmall (v : Z) (n : nat) : list Z := firstn n (v :: repeat 0 (n - 1)).

(** Powm, BigNumber.cpp:111-158. *)
Definition Powm (a e m : list Z) : res (option (list Z)) :=
  if negb (Nat.eqb (length a) (length e)) || negb (Nat.eqb (length e) (length m)) then Ok None
  else bind (powDigits (trim e) (ofSmall 1 (length m)) a m) (fun r => Ok (Some r)).

(** Set(data, size), BigNumber.cpp:86-109, of a number without digits, and
    BytesToAllocationUnit, 58-61. *)
Fixpoint digitsOf (n : nat) (bytes : list Z) : list Z :=
  match n with
  | O => []
  | S n' => unle (firstn 8 bytes) :: digitsOf n' (skipn 8 bytes)
  end.
(** Also BigNumber.cpp:86-109, 58. *)
Definition Set_ (data : list Z) : list Z :=
  digitsOf ((length data + 7) / 8) (rev data).

(** Export, BigNumber.cpp:17-28: the bytes written to [out]. *)
Definition Export (m : list Z) (size : nat) : list Z :=
  let bytes := flat_map (le 8) m in
  rev (firstn (Nat.min (8 * length m) size) bytes).
