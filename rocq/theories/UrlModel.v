(** Model of mtTorrent/utils/UrlEncoding.cpp. *)
From Verif Require Import Base.

(** [isspace] in the "C" locale, used by [scanf] to skip leading white space. For [urlDecodeLoop], UrlEncoding.cpp:10-28. *)
Definition isSpace (c : Z) : bool := (c =? 32) || ((9 <=? c) && (c <=? 13)).

(** Value of a hexadecimal digit for [scanf("%zx")]; [None] if it is none. For [urlDecodeLoop], UrlEncoding.cpp:10-28. *)
Definition hexVal (c : Z) : option Z :=
  if (48 <=? c) && (c <=? 57) then Some (c - 48)
  else if (65 <=? c) && (c <=? 70) then Some (c - 55)
  else if (97 <=? c) && (c <=? 102) then Some (c - 87)
  else None.

(** [sscanf(s, "%zx", &ii)] on a string of at most two characters (C11 7.21.6.2).
    [None]: no conversion, [ii] keeps its old value. White space is skipped, one sign
    is accepted, "0x" alone is a matching failure. For [urlDecodeLoop], UrlEncoding.cpp:10-28. *)
Definition scanHex2 (s : list Z) : option Z :=
  match s with
  | [] => None
  | [c] => hexVal c
  | c1 :: c2 :: _ =>
    if isSpace c1 then hexVal c2
    else if c1 =? 43 then hexVal c2                         (* '+' *)
    else if c1 =? 45 then                                  (* '-': negated modulo 2^64 *)
      match hexVal c2 with Some d => Some (u64 (- d)) | None => None end
    else if (c1 =? 48) && ((c2 =? 120) || (c2 =? 88)) then None   (* "0x" *)
    else match hexVal c1 with
         | None => None
         | Some d1 => match hexVal c2 with
                      | Some d2 => Some (d1 * 16 + d2)
                      | None => Some d1
                      end
         end
  end.

(** UrlEncoding.cpp:10-28 the decoding loop. [ii] is the loop's scratch variable,
    [None] while uninitialised: using it then is undefined behaviour. [i = i + 2] after an
    escape skips two characters even if fewer are there ([skipn]). *)
Fixpoint urlDecodeLoop (fuel : nat) (s : list Z) (ii : option Z) : res (list Z) :=
  match fuel with
  | O => match s with [] => Ok [] | _ => UB end
  | S fuel' =>
    match s with
    | [] => Ok []
    | c :: s' =>
      if negb (c =? 37) then
        bind (urlDecodeLoop fuel' s' ii) (fun r =>
          Ok ((if c =? 43 then 32 else c) :: r))
      else
        let ii' := match scanHex2 (firstn 2 s') with Some v => Some v | None => ii end in
        match ii' with
        | None => UB
        | Some v => bind (urlDecodeLoop fuel' (skipn 2 s') ii') (fun r => Ok (u8 v :: r))
        end
    end
  end.

(** UrlEncoding.cpp:4-29 [UrlDecode]. Every iteration consumes at least one character, so
    the length is enough fuel. *)
Definition UrlDecode (s : list Z) : res (list Z) := urlDecodeLoop (length s) s None.

(** Helper of [UrlEncode], UrlEncoding.cpp:31-54. *)
Definition lookup : list Z := [48;49;50;51;52;53;54;55;56;57;65;66;67;68;69;70].

(** UrlEncoding.cpp:38-42 characters copied unchanged. *)
Definition urlPlain (c : Z) : bool :=
  ((48 <=? c) && (c <=? 57)) || ((65 <=? c) && (c <=? 90)) || ((97 <=? c) && (c <=? 122)).

(** UrlEncoding.cpp:31-54 [UrlEncode]. *)
Fixpoint UrlEncode (data : list Z) : list Z :=
  match data with
  | [] => []
  | c :: rest =>
    if urlPlain c then c :: UrlEncode rest
    else 37 :: nth (Z.to_nat (Z.shiftr (Z.land c 240) 4)) lookup 0
            :: nth (Z.to_nat (Z.land c 15)) lookup 0 :: UrlEncode rest
  end.
