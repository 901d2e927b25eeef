(** Bytes, and Python's UTF-8 and base64 (Objects/stringlib/codecs.h, Modules/binascii.c), as requests.py and httpx.py use them. *)
From Verif Require Export PyStr.

Definition bytes := list N.
Definition is_byte (n : N) : Prop := (n < 256)%N.

(** ** str.encode("utf-8") *)
Definition utf8_char (c : char) : option bytes :=
  (if c <? 128 then Some [c]
   else if c <? 2048 then Some [192 + c / 64; 128 + c mod 64]
   else if (55296 <=? c) && (c <=? 57343) then None                        (* surrogates not allowed *)
   else if c <? 65536 then Some [224 + c / 4096; 128 + c / 64 mod 64; 128 + c mod 64]
   else if c <? 1114112 then Some [240 + c / 262144; 128 + c / 4096 mod 64; 128 + c / 64 mod 64; 128 + c mod 64]
   else None)%N.
(** None: UnicodeEncodeError *)
Fixpoint utf8_encode (s : str) : option bytes :=
  match s with
  | [] => Some []
  | c :: r => match utf8_char c, utf8_encode r with Some a, Some b => Some (a ++ b) | _, _ => None end
  end.

(** ** bytes.decode("utf-8"), strict; None: UnicodeDecodeError *)
Definition within (lo hi n : N) : bool := ((lo <=? n) && (n <=? hi))%N.
Definition cons_to (c : char) (o : option str) : option str := match o with Some s => Some (c :: s) | None => None end.
Fixpoint utf8_decode (b : bytes) : option str :=
  match b with
  | [] => Some []
  | a :: r =>
      if (a <? 128)%N then cons_to a (utf8_decode r)
      else if within 194 223 a then
        match r with
        | x :: r1 => if within 128 191 x then cons_to ((a - 192) * 64 + (x - 128))%N (utf8_decode r1) else None
        | [] => None
        end
      else if within 224 239 a then
        match r with
        | x :: y :: r1 =>
            if within (if (a =? 224)%N then 160 else 128) (if (a =? 237)%N then 159 else 191) x && within 128 191 y
            then cons_to ((a - 224) * 4096 + (x - 128) * 64 + (y - 128))%N (utf8_decode r1) else None
        | _ => None
        end
      else if within 240 244 a then
        match r with
        | x :: y :: z :: r1 =>
            if within (if (a =? 240)%N then 144 else 128) (if (a =? 244)%N then 143 else 191) x && within 128 191 y && within 128 191 z
            then cons_to ((a - 240) * 262144 + (x - 128) * 4096 + (y - 128) * 64 + (z - 128))%N (utf8_decode r1) else None
        | _ => None
        end
      else None
  end.

(** ** base64.b64encode(...).decode("ascii") *)
Definition b64_char (n : N) : char :=
  (if n <? 26 then 65 + n else if n <? 52 then 71 + n else if n <? 62 then n - 4 else if n =? 62 then 43 else 47)%N.
Definition PAD : char := 61%N.
Fixpoint b64encode (b : bytes) : str :=
  match b with
  | [] => []
  | [x] => [b64_char (x / 4); b64_char (x mod 4 * 16); PAD; PAD]
  | [x; y] => [b64_char (x / 4); b64_char (x mod 4 * 16 + y / 16); b64_char (y mod 16 * 4); PAD]
  | x :: y :: z :: r =>
      b64_char (x / 4) :: b64_char (x mod 4 * 16 + y / 16) :: b64_char (y mod 16 * 4 + z / 64) :: b64_char (z mod 64) :: b64encode r
  end%N.

(** ** base64.b64decode(text.encode("ascii")) *)
Definition b64_value (c : char) : option N :=
  (if within 65 90 c then Some (c - 65) else if within 97 122 c then Some (c - 71) else if within 48 57 c then Some (c + 4)
   else if c =? 43 then Some 62 else if c =? 47 then Some 63 else None)%N.
Definition byte_to (n : N) (o : option bytes) : option bytes := match o with Some b => Some (n :: b) | None => None end.
(** binascii.a2b_base64, not strict: [quad] is the position in the group of four, [left] the bits left over, [pads] the number of
    "=" just seen; characters outside the alphabet are skipped. None: binascii.Error, Incorrect padding *)
Fixpoint a2b (quad : nat) (left : N) (pads : nat) (s : str) : option bytes :=
  match s with
  | [] => match quad with 0 => Some [] | _ => None end
  | c :: r =>
      if (c =? PAD)%N then
        if Nat.leb 2 quad then if Nat.leb 4 (quad + S pads) then Some [] else a2b quad left (S pads) r
        else a2b quad left pads r
      else
        match b64_value c with
        | None => a2b quad left pads r
        | Some v =>
            match quad with
            | 0 => a2b 1 v 0 r
            | 1 => byte_to (left * 4 + v / 16)%N (a2b 2 (v mod 16)%N 0 r)
            | 2 => byte_to (left * 16 + v / 4)%N (a2b 3 (v mod 4)%N 0 r)
            | _ => byte_to (left * 64 + v)%N (a2b 0 0%N 0 r)
            end
        end
  end.
(** None: UnicodeEncodeError or binascii.Error *)
Definition b64decode (s : str) : option bytes := if forallb (fun c => c <? 128)%N s then a2b 0 0%N 0 s else None.
