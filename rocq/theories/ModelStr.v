(** * Model of reading and writing numbers as text.

    Paths as in Model.v.  A std::string is a list of characters; its length is
    not limited (SIMPLIFIED: no std::bad_alloc and no std::length_error except
    for the wrapped counts described at [insert_n]).  The conversions of
    utility/util_numeric_cast.h go through std::stringstream; the extraction
    operator is modelled as libstdc++ implements it in the "C" locale. *)

From Coq Require Import ZArith List Bool Ascii.
From Verif Require Import Model.
Import ListNotations.
Open Scope Z_scope.

(** A call returns normally, throws a standard exception, or has undefined
    behaviour. *)
Inductive io (A : Type) := Ok (a : A) | Throws | UB.
Arguments Ok {A} _.
Arguments Throws {A}.
Arguments UB {A}.

(* sequencing of statements *)
Definition bind {A B : Type} (x : io A) (f : A -> io B) : io B :=
  match x with Ok a => f a | Throws => Throws | UB => UB end.

(** ** Characters and strings *)

Notation str := (list ascii).

(* static_cast<std::uint32_t>(c) *)
Definition code (c : ascii) : Z := Z.of_N (N_of_ascii c).

(* c - '0' *)
Definition dig (c : ascii) : Z := code c - 48.

(* std::isdigit in the "C" locale *)
Definition is_digit (c : ascii) : bool := (48 <=? code c) && (code c <=? 57).

(* std::isspace in the "C" locale: blank, \t, \n, \v, \f, \r *)
Definition is_space (c : ascii) : bool :=
  (code c =? 32) || ((9 <=? code c) && (code c <=? 13)).

(* std::string::find(c): position of the first occurrence *)
Fixpoint find (c : ascii) (s : str) : option nat :=
  match s with
  | [] => None
  | x :: t => if Ascii.eqb x c then Some O
              else match find c t with Some i => Some (S i) | None => None end
  end.

(* std::string::erase(p, 1) *)
Definition erase1 (p : nat) (s : str) : str := firstn p s ++ skipn (S p) s.

(* std::string::insert(p, t), for p within the string *)
Definition insert_at (p : nat) (t s : str) : str := firstn p s ++ t ++ skipn p s.

(* n characters '0' *)
Definition zeros (n : nat) : str := repeat "0"%char n.

(* the rest of the string from the first character different from '0'
   (std::find_if with the lambda c != '0', then erase) *)
Fixpoint drop_zeros (s : str) : str :=
  match s with
  | [] => []
  | c :: t => if Ascii.eqb c "0" then drop_zeros t else s
  end.

(* the same from the right (std::find_if on reverse iterators, then erase) *)
Definition drop_trailing_zeros (s : str) : str := rev (drop_zeros (rev s)).

(* s.at(i) = c / s[i] = c *)
Fixpoint set_at (i : nat) (c : ascii) (s : str) : str :=
  match s, i with
  | [], _ => []
  | _ :: t, O => c :: t
  | h :: t, S i' => h :: set_at i' c t
  end.

(** ** Conversions between integers and text *)

(* digits of a non-negative integer, most significant first, as operator<<
   writes them; the fuel exceeds the number of digits of a 64-bit integer *)
Fixpoint dec_rev (fuel : nat) (z : Z) : str :=
  match fuel with
  | O => []
  | S f => ascii_of_N (Z.to_N (48 + z mod 10)) :: (if z / 10 =? 0 then [] else dec_rev f (z / 10))
  end.

(* utility/util_lexical_cast.h 16-24 for unsigned values *)
Definition lexical_cast (z : Z) : str := rev (dec_rev 20 z).

(* the longest prefix of decimal digits: its value added to 10^k * acc, and
   whether there was at least one digit *)
Fixpoint read_digits (s : str) (acc : Z) (seen : bool) : Z * bool :=
  match s with
  | c :: t => if is_digit c then read_digits t (acc * 10 + dig c) true else (acc, seen)
  | [] => (acc, seen)
  end.

(* std::ws *)
Fixpoint skip_ws (s : str) : str :=
  match s with
  | c :: t => if is_space c then skip_ws t else s
  | [] => []
  end.

(* optional sign *)
Definition read_sign (s : str) : bool * str :=
  match s with
  | c :: t => if Ascii.eqb c "-" then (true, t) else if Ascii.eqb c "+" then (false, t) else (false, s)
  | [] => (false, [])
  end.

(* utility/util_numeric_cast.h 19-45 for std::int64_t.  When there is nothing
   but white space the extraction leaves the uninitialised variable t alone,
   and returning it is undefined; without digits the result is 0; out of range
   values are clamped. *)
Definition numeric_cast_sll (s : str) : outcome Z :=
  match skip_ws s with
  | [] => Undefined
  | t =>
      let '(b, r) := read_sign t in
      let '(v, seen) := read_digits r 0 false in
      Defined (if negb seen then 0
               else if b then Z.max sll_min (- v) else Z.min sll_max v)
  end.

(* utility/util_numeric_cast.h 19-45 for std::uint32_t: a minus sign negates
   modulo 2^32, out of range values give 2^32-1 *)
Definition numeric_cast_u32 (s : str) : outcome Z :=
  match skip_ws s with
  | [] => Undefined
  | t =>
      let '(b, r) := read_sign t in
      let '(v, seen) := read_digits r 0 false in
      Defined (if negb seen then 0
               else if v >? 4294967295 then 4294967295
               else if b then u32 (- v) else v)
  end.

(* conversion to std::int32_t *)
Definition s32 (x : Z) : Z :=
  let y := u32 x in
  if y <? 2147483648 then y else y - 4294967296.

(* signed 64-bit arithmetic on the exponent: overflow is undefined *)
Definition checked64 (e : Z) : io Z :=
  if (sll_min <=? e) && (e <=? sll_max) then Ok e else UB.

Definition of_outcome {A : Type} (x : outcome A) : io A :=
  match x with Defined a => Ok a | Undefined => UB end.

(** ** Reading: efx/e_float_efx.cpp 1807-2070 *)

(* efx/e_float_efx.cpp 1811-1825: exponent part *)
Definition rd_exponent (s : str) : io (str * Z) :=
  match find "e" s with
  | Some p => bind (of_outcome (numeric_cast_sll (skipn (S p) s))) (fun e => Ok (firstn p s, e))
  | None =>
      match find "E" s with
      | Some p => bind (of_outcome (numeric_cast_sll (skipn (S p) s))) (fun e => Ok (firstn p s, e))
      | None => Ok (s, 0)
      end
  end.

(* efx/e_float_efx.cpp 1827-1840: the first '-' and the first '+' are removed
   wherever they stand *)
Definition rd_sign (s : str) : str * bool :=
  let '(s, b) := match find "-" s with Some p => (erase1 p s, true) | None => (s, false) end in
  (match find "+" s with Some p => erase1 p s | None => s end, b).

(* the text is zero, or it is a string containing a point with an exponent *)
Inductive reading := RZero | RNum (s : str) (e : Z).

(* efx/e_float_efx.cpp 1842-1867: leading zeros *)
Definition rd_leading (s : str) (e : Z) : reading :=
  let t := drop_zeros s in
  if (length t <? length s)%nat
  then match t with [] => RZero | _ => RNum t e end
  else RNum s e.

(* efx/e_float_efx.cpp 1875-1935: decimal point *)
Definition rd_point (s : str) (e : Z) : io reading :=
  match find "." s with
  | None => Ok (RNum (s ++ ["."%char]) e)
  | Some _ =>
      match drop_trailing_zeros s with
      | [] => Throws
      | c :: r =>
          if Ascii.eqb c "." then
            match r with
            | [] => Ok RZero
            | _ =>
                let t := drop_zeros r in
                match t with
                | [] => Throws
                | h :: t' =>
                    bind (checked64 (e - (Z.of_nat (length r - length t) + 1)))
                         (fun e' => Ok (RNum (h :: "."%char :: t') e'))
                end
            end
          else Ok (RNum (c :: r) e)
      end
  end.

(* efx/e_float_efx.cpp 1937-1971: move the point to the right so that the
   exponent becomes a multiple of 8.  [find] always succeeds here. *)
Definition rd_shift (s : str) (e : Z) : io (str * Z) :=
  match find "." s with
  | None => Throws
  | Some pos =>
      let r := Z.rem e 8 in
      let n_shift := if r =? 0 then 0 else if e <? 0 then r + 8 else r in
      let n := Z.to_nat n_shift in
      let s := s ++ zeros (n - (length s - (pos + 1))) in
      if n_shift =? 0 then Ok (s, e)
      else bind (checked64 (e - n_shift))
                (fun e' => Ok (erase1 pos (insert_at (pos + 1 + n) ["."%char] s), e'))
  end.

(* efx/e_float_efx.cpp 1973-1990: at most 8 digits before the point *)
Definition rd_cut (s : str) (e : Z) : io (str * Z) :=
  match find "." s with
  | None => Throws
  | Some pos =>
      if (8 <? pos)%nat then
        let n_pos := s32 (Z.of_nat pos) in
        let rem0 := if Z.rem n_pos 8 =? 0 then 1 else 0 in
        let n := Z.quot n_pos 8 - rem0 in
        let ip := n_pos - n * 8 in
        if (ip <? 0) || (ip >? Z.of_nat (length s)) then Throws
        else bind (checked64 (e + n * 8))
                  (fun e' => Ok (erase1 (pos + 1) (insert_at (Z.to_nat ip) ["."%char] s), e'))
      else Ok (s, e)
  end.

(* efx/e_float_efx.cpp 1992-2006: pad the decimals to a multiple of 8 *)
Definition rd_pad (s : str) : str :=
  match find "." s with
  | None => s
  | Some pos =>
      let n_dec := s32 (s32 (Z.of_nat (length s) - 1) - s32 (Z.of_nat pos)) in
      let n_rem := Z.rem n_dec 8 in
      s ++ zeros (if n_rem =? 0 then O else Z.to_nat (8 - n_rem))
  end.

(* groups of 8 characters, [n] of them *)
Fixpoint groups (n : nat) (s : str) : list str :=
  match n with
  | O => []
  | S m => firstn 8 s :: groups m (skipn 8 s)
  end.

(* the assignments my_data[i] = numeric_cast(...) in order *)
Fixpoint read_groups (l : list str) : io (list Z) :=
  match l with
  | [] => Ok []
  | g :: t => bind (of_outcome (numeric_cast_u32 g)) (fun v =>
              bind (read_groups t) (fun r => Ok (v :: r)))
  end.

Section Str.

Variable d10 : Z.

Local Notation N := (Model.N d10).
Local Notation Nn := (Model.Nn d10).

(* efx/e_float_efx.cpp 2008-2037: truncate the decimals and fill the limbs *)
Definition rd_limbs (s : str) : io (list Z) :=
  match find "." s with
  | None => Throws
  | Some pos =>
      let max_dec := Z.to_nat ((N - 1) * 8) in
      let s := if (max_dec <? length s - pos)%nat then firstn (pos + 1 + max_dec) s else s in
      bind (of_outcome (numeric_cast_u32 (firstn pos s))) (fun a =>
      bind (read_groups (groups ((length s - (pos + 1)) / 8) (skipn (pos + 1) s))) (fun l =>
      Ok (firstn Nn (a :: l ++ repeat 0 Nn))))
  end.

(* efx/e_float_efx.cpp 2039-2068: overflow and underflow *)
Definition rd_range (x : ef) : ef :=
  let x := if exp x >? max_exp10 then signed_inf d10 (neg x) else x in
  if exp x <=? min_exp10 then
    if exp x =? min_exp10
    then if isone (mkef (data x) 0 (neg x) (cls x) (prec x)) then zero d10 else x
    else zero d10
  else x.

(* efx/e_float_efx.cpp 1807-2070: rd_string, called on the object [x]; its
   class and working precision are kept *)
Definition rd_string (x : ef) (s : str) : io ef :=
  bind (rd_exponent s) (fun '(s, e) =>
  let '(s, b) := rd_sign s in
  match rd_leading s e with
  | RZero => Ok (zero d10)
  | RNum s e =>
      bind (rd_point s e) (fun r =>
      match r with
      | RZero => Ok (zero d10)
      | RNum s e =>
          bind (rd_shift s e) (fun '(s, e) =>
          bind (rd_cut s e) (fun '(s, e) =>
          bind (rd_limbs (rd_pad s)) (fun l =>
          Ok (rd_range (mkef l e b (cls x) (prec x))))))
      end)
  end).

(* efx/e_float_efx.cpp 87-117: constructors from text (rd_string always
   returns true) *)
Definition of_string (s : str) : io ef := rd_string (ef_default d10) s.

(** ** Writing *)

(* std::setw(8), std::setfill('0') and operator<< *)
Definition limb_text (z : Z) : str :=
  let t := lexical_cast z in zeros (8 - length t) ++ t.

(* the loop of efx/e_float_efx.cpp 1779-1784: trailing nines become zeros *)
Fixpoint carry_nines (ix : nat) (s : str) : nat * str :=
  match ix with
  | O => (O, s)
  | S j => if Ascii.eqb (nth ix s "0"%char) "9" then carry_nines j (set_at ix "0" s) else (ix, s)
  end.

(* ++c *)
Definition succ_char (c : ascii) : ascii := ascii_of_N (N_of_ascii c + 1).

(* efx/e_float_efx.cpp 1774-1803: round the digit string up.  For the empty
   string ix wraps to the largest size_t and str.at(ix) throws. *)
Definition round_up (s : str) (e : Z) : io (str * Z) :=
  match length s with
  | O => Throws
  | S j =>
      let '(ix, s) := carry_nines j s in
      let c := nth ix s "0"%char in
      match ix with
      | O => if Ascii.eqb c "9" then Ok (set_at O "1" s, e + 1) else Ok (set_at O (succ_char c) s, e)
      | _ => Ok (set_at ix (succ_char c) s, e)
      end
  end.

(* all digits of the first k limbs *)
Definition all_digits (l : list Z) (k : nat) : str :=
  lexical_cast (limb l 0) ++ concat (map limb_text (firstn (k - 1) (skipn 1 l))).

(* efx/e_float_efx.cpp 1742-1805 *)
Definition get_output_string (x : ef) (e : Z) (n : nat) : io (str * Z) :=
  let s := all_digits (data x) (Nat.min (n / 8 + 2) Nn) in
  if (n <? length s)%nat then
    if 5 <=? dig (nth n s "0"%char) then round_up (firstn n s) e else Ok (firstn n s, e)
  else Ok (s, e).

(** Stream state used by wr_string: format flags, precision, width and fill
    character. *)
Record stream := mkstream {
  f_scientific : bool; f_fixed : bool; f_showpos : bool; f_showpoint : bool;
  f_uppercase : bool; f_left : bool;
  s_precision : Z; s_width : Z; s_fill : ascii
}.

(* str.insert(str.cend(), n, '0') where n is a size_t; counts that wrapped
   below zero exceed max_size() and throw std::length_error *)
Definition insert_n (s : str) (n : Z) : io str :=
  if n >? sll_max then Throws else Ok (s ++ zeros (Z.to_nat n)).

(* e_float_base.cpp 471-513 *)
Definition extend (s : str) (p : Z) : io str :=
  match s with
  | a :: t =>
      match t with
      | b :: r =>
          if Ascii.eqb a "0" && Ascii.eqb b "." then
            match r with
            | [] => insert_n s p
            | _ => insert_n s (u64 (p - Z.of_nat (length (drop_zeros r))))
            end
          else insert_n s (u64 (p - (Z.of_nat (length s) - 1)))
      | [] => if Ascii.eqb a "0" then Throws else insert_n s (u64 (p - (Z.of_nat (length s) - 1)))
      end
  | [] => Throws
  end.

(* e_float_base.cpp 331-364 and 432-468: trimming and the trailing point *)
Definition finish (s : str) (p : Z) (showpoint trim : bool) : io str :=
  let s := if trim then drop_trailing_zeros s else s in
  if showpoint then (if trim then extend s p else Ok s)
  else Ok (match rev s with
           | c :: r => if Ascii.eqb c "." then rev r else s
           | [] => s
           end).

(* e_float_base.cpp 366-382: the exponent *)
Definition exponent_text (e : Z) (upper : bool) : str :=
  let t := lexical_cast (Z.abs e) in
  [if upper then "E"%char else "e"%char; if e <? 0 then "-"%char else "+"%char] ++
  zeros (match (length t mod 3)%nat with O => O | r => (3 - r)%nat end) ++ t.

(* e_float_base.cpp 314-383 *)
Definition wr_scientific (s : str) (e p : Z) (showpoint upper trim : bool) : io str :=
  match s with
  | [] => Throws
  | _ =>
      let s := s ++ zeros (Z.to_nat (p - (Z.of_nat (length s) - 1))) in
      bind (finish (insert_at 1 ["."%char] s) p showpoint trim) (fun s =>
      Ok (s ++ exponent_text e upper))
  end.

(* e_float_base.cpp 385-469 *)
Definition wr_fixed (s : str) (e p : Z) (showpoint trim : bool) : io str :=
  let s :=
    if e <? 0 then
      let z := zeros (Z.to_nat (Z.min (- e - 1) p)) in
      let n_pad := p - Z.of_nat (length s + length z) in
      ["0"%char; "."%char] ++ z ++ s ++ zeros (Z.to_nat n_pad)
    else
      let s := s ++ zeros (Z.to_nat (e + 1 - Z.of_nat (length s))) in
      let s := insert_at (Z.to_nat (e + 1)) ["."%char] s in
      let n_pad := p - (Z.of_nat (length s) - 1 - (e + 1)) in
      s ++ zeros (Z.to_nat n_pad) in
  finish s p showpoint trim.

(* e_float_base.cpp 291-312; the strings are "inf", "nan" etc. *)
Definition nonfinite_text (x : ef) (showpos upper : bool) : str :=
  let inf := if upper then ["I"; "N"; "F"]%char else ["i"; "n"; "f"]%char in
  if isinf x then
    (if negb (isneg x) then (if showpos then "+"%char :: inf else inf) else "-"%char :: inf)
  else if upper then ["N"; "A"; "N"]%char else ["n"; "a"; "n"]%char.

(* e_float_base.cpp 170-176: precision used *)
Definition os_precision (os : stream) : Z :=
  if s_precision os <=? 0 then 6 else s_precision os.

(* e_float_base.cpp 178-214: is scientific notation used? *)
Definition use_scientific (os : stream) (e : Z) : bool :=
  if f_scientific os then true
  else if f_fixed os then false
  else (e <? -4) || (e >=? Z.min d10 (Z.max (os_precision os) 6)).

(* e_float_base.cpp 216-262: number of digits requested *)
Definition digits_wanted (os : stream) (e : Z) : nat :=
  let p := os_precision os in
  let m := max_digits10 d10 + 1 in
  let n := if use_scientific os e then Z.min m (1 + p)
           else if e >=? 0 then Z.min (e + 1 + p) m
           else Z.min (Z.max (e + 1 + p) 0) m in
  Z.to_nat (if f_scientific os || f_fixed os then n
            else Z.min n (Z.min p (max_digits10 d10))).

(* e_float_base.cpp 275-288: width and fill *)
Definition fill (os : stream) (s : str) : str :=
  let f := repeat (s_fill os) (Z.to_nat (s_width os) - length s) in
  if f_left os then s ++ f else f ++ s.

(* e_float_base.cpp 154-289: wr_string, used by operator<< *)
Definition wr_string (x : ef) (os : stream) : io str :=
  if negb (isfinite x) then Ok (nonfinite_text x (f_showpos os) (f_uppercase os))
  else
    let e0 := order x in
    let p := os_precision os in
    bind (get_output_string x e0 (digits_wanted os e0)) (fun '(s, e) =>
    let trim := negb (f_scientific os || f_fixed os) in
    bind (if use_scientific os e0
          then wr_scientific s e p (f_showpoint os) (f_uppercase os) trim
          else wr_fixed s e p (f_showpoint os) trim) (fun s =>
    let s := if isneg x then "-"%char :: s else if f_showpos os then "+"%char :: s else s in
    Ok (fill os s))).

End Str.
