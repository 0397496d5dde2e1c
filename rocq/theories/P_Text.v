(** * Properties C24-C30: reading and writing text. *)

From Coq Require Import ZArith List Bool Ascii String Lia Reals Lra.
From Verif Require Import Model Spec SpecText Limbs Value CmpProofs AddProofs Decide OrderProofs ModelStr StrProofs StrOut StrFmt StrAny.
Import ListNotations.
Open Scope R_scope.
Local Notation length := List.length.
Local Notation chars := list_ascii_of_string.

(** C24: every valid decimal literal is read as its value cut off after the
    last limb.  Missing: exponents beyond +-9*10^18, where the full statement is
    false, and texts of more than 2^31 characters. *)
Theorem C24_read_literal_partial :
  forall d l, valid_digits d -> valid_literal l ->
  (Z.of_nat (length (text l)) < 2147483600)%Z -> (Z.abs (l_exponent l) <= 9000000000000000000)%Z ->
  exists r, of_string d (text l) = Ok r /\ read_result d (literal_value l) r /\ full d r.
Proof. exact literal_cor. Qed.
Print Assumptions C24_read_literal_partial.

Example C24_hypotheses_met :
  let l := mkliteral (Some true) [0; 0; 1; 2]%Z true [5; 0]%Z (Some (true, Some true, [3]%Z)) in
  text l = chars "-0012.50E-3" /\ valid_literal l /\
  match of_string 30 (text l) with Ok r => wfb 30 r && op_eq r (of_sll 30 0) = false | _ => False end.
Proof.
  split; [reflexivity|]. split; [|vm_compute; reflexivity].
  unfold valid_literal, is_decimal; cbn. repeat split; try discriminate; repeat constructor; try lia; intros; congruence || (injection H as <- <- <-; repeat constructor; lia) || idtac.
  all: try (injection H as <- <- <-; repeat constructor; try lia; discriminate).
Qed.

(** C24: the same for a string read into an existing finite object. *)
Theorem C24_read_into_object_partial :
  forall d x l, valid_digits d -> cls x = Finite -> (2 <= prec x <= elem_number d)%Z -> valid_literal l ->
  (Z.of_nat (length (text l)) < 2147483600)%Z -> (Z.abs (l_exponent l) <= 9000000000000000000)%Z ->
  exists r, rd_string d x (text l) = Ok r /\ read_result d (literal_value l) r /\ (full d x -> full d r).
Proof. exact rd_literal. Qed.
Print Assumptions C24_read_into_object_partial.

Example C24_into_hypotheses_met :
  cls (of_sll 30 7) = Finite /\ (2 <= prec (of_sll 30 7) <= elem_number 30)%Z /\
  match rd_string 30 (of_sll 30 7) (chars "1e3") with Ok r => op_eq r (of_sll 30 1000) = true | _ => False end.
Proof. split; [reflexivity|]. split; [vm_compute; split; discriminate|vm_compute; reflexivity]. Qed.

(** C24: a valid literal whose exponent overflows a signed 64-bit integer. *)
Theorem C24_read_literal_refuted :
  exists l, valid_literal l /\ text l = chars "123456789e9223372036854775807" /\ of_string 30 (text l) = UB.
Proof. exact exponent_overflow_ex. Qed.
Print Assumptions C24_read_literal_refuted.

(** C25: reading any string throws no exception, and the result depends on the
    previous object only through its class and working precision.  Missing:
    freedom from undefined behaviour and independence of the class, both of
    which are false, see below. *)
Theorem C25_read_any_partial :
  forall d x s, (Z.of_nat (length s) <= 2147483600)%Z -> rd_string d x s <> Throws.
Proof. exact rd_string_nothrow. Qed.
Print Assumptions C25_read_any_partial.

Theorem C25_read_state_partial :
  forall d x y s, cls x = cls y -> prec x = prec y -> rd_string d x s = rd_string d y s.
Proof. exact rd_string_state. Qed.
Print Assumptions C25_read_state_partial.

Example C25_hypotheses_met :
  (Z.of_nat (length (chars "1.2.3xyz-+e")) <= 2147483600)%Z /\ cls (of_sll 30 7) = cls (zero 30) /\ prec (of_sll 30 7) = prec (zero 30) /\
  of_sll 30 7 <> zero 30.
Proof. split; [vm_compute; discriminate|]. split; [reflexivity|]. split; [reflexivity|vm_compute; discriminate]. Qed.

(** C25: reading the empty string is undefined; reading "1" into a NaN leaves a
    NaN. *)
Theorem C25_read_any_refuted :
  of_string 30 [] = UB /\ of_string 30 (chars "1e") = UB /\
  exists r, rd_string 30 (value_nan 30) (chars "1") = Ok r /\ cls r = NaN.
Proof. exact read_any_ex. Qed.
Print Assumptions C25_read_any_refuted.

(** C26: the digits are those of the number rounded half away from zero; there
    are n of them unless the number has no more.  Missing: n = 0, where it is
    false. *)
Theorem C26_digits_partial :
  forall d x n k, valid_digits d -> finite d x -> decimal_order (value x) k -> (1 <= n)%nat ->
  exists ds e, get_output_string d x k n = Ok (map digit_char ds, e) /\ Forall is_decimal ds /\
    (length ds <= n)%nat /\ (length ds = n \/ d < Z.of_nat (length ds))%Z /\ (value x <> 0 -> hd 0%Z ds <> 0%Z) /\
    rounded_to (powerRZ 10 (k + 1 - Z.of_nat n)) (Rabs (value x))
      (IZR (decimal_Z ds) * powerRZ 10 (e + 1 - Z.of_nat (length ds))).
Proof. exact digits_cor. Qed.
Print Assumptions C26_digits_partial.

Example C26_hypotheses_met :
  finite 30 (of_sll 30 99961) /\ decimal_order (value (of_sll 30 99961)) 4 /\
  get_output_string 30 (of_sll 30 99961) 4 3 = Ok (chars "100", 5%Z).
Proof.
  assert (F : finite 30 (of_sll 30 99961)) by (apply wfb_finite; vm_compute; reflexivity).
  split; [exact F|]. split; [exact (order_decimal 30 _ valid_30 F)|vm_compute; reflexivity].
Qed.

(** C26: no digit of 5 wanted: std::out_of_range. *)
Theorem C26_digits_refuted : get_output_string 30 (of_sll 30 5) 0 0 = Throws.
Proof. exact no_digit_ex. Qed.
Print Assumptions C26_digits_refuted.

(** C27: scientific notation.  (The exponent is a 64-bit integer.) *)
Theorem C27_scientific :
  forall d x os k, valid_digits d -> finite d x -> (Z.abs (exp x) < 2 ^ 63)%Z -> f_scientific os = true -> decimal_order (value x) k ->
  let p := (if (s_precision os <=? 0)%Z then 6 else s_precision os)%Z in
  exists l, wr_string d x os = Ok (justified (s_fill os) (s_width os) (f_left os) (text l)) /\
    valid_literal l /\ l_sign l = shown_sign (neg x) (f_showpos os) /\ scientific (f_uppercase os) (value x) l /\
    l_point l = true /\ Z.of_nat (length (l_frac l)) = p /\
    rounded_to (powerRZ 10 (k + 1 - (Z.min (d + 1) p + 1))) (value x) (literal_value l).
Proof. exact sci_cor. Qed.
Print Assumptions C27_scientific.

Example C27_hypotheses_met :
  let x := of_sll 30 (-1234567) in let os := mkstream true false false false true true 3 15 "*" in
  finite 30 x /\ (Z.abs (exp x) < 2 ^ 63)%Z /\ decimal_order (value x) 6 /\
  wr_string 30 x os = Ok (chars "-1.235E+006****").
Proof.
  cbv zeta. assert (F : finite 30 (of_sll 30 (-1234567))) by (apply wfb_finite; vm_compute; reflexivity).
  split; [exact F|]. split; [vm_compute; reflexivity|]. split; [exact (order_decimal 30 _ valid_30 F)|vm_compute; reflexivity].
Qed.

(** C28: fixed notation, p decimals.  Missing: numbers below the last decimal
    whose leading digit is at least 5, where it is false. *)
Theorem C28_fixed_partial :
  forall d x os k, valid_digits d -> finite d x -> f_scientific os = false -> f_fixed os = true -> decimal_order (value x) k ->
  let p := (if (s_precision os <=? 0)%Z then 6 else s_precision os)%Z in
  (forall j, (j <= - p)%Z -> ~ powerRZ 10 j / 2 <= Rabs (value x) < powerRZ 10 j) ->
  exists l, wr_string d x os = Ok (justified (s_fill os) (s_width os) (f_left os) (text l)) /\
    valid_literal l /\ l_sign l = shown_sign (neg x) (f_showpos os) /\ positional l /\
    l_point l = true /\ Z.of_nat (length (l_frac l)) = p /\
    rounded_to (powerRZ 10 (Z.max (- p) (k - (d + 1)))) (value x) (literal_value l).
Proof. exact fixed_cor. Qed.
Print Assumptions C28_fixed_partial.

Example C28_fixed_hypotheses_met :
  let x := of_sll 30 (-1234567) in let os := mkstream false true false false false false 2 13 "_" in
  finite 30 x /\ decimal_order (value x) 6 /\
  (forall j, (j <= - 2)%Z -> ~ powerRZ 10 j / 2 <= Rabs (value x) < powerRZ 10 j) /\
  wr_string 30 x os = Ok (chars "__-1234567.00").
Proof.
  cbv zeta. assert (F : finite 30 (of_sll 30 (-1234567))) by (apply wfb_finite; vm_compute; reflexivity).
  pose proof (order_decimal 30 _ valid_30 F) as O. change (order (of_sll 30 (-1234567))) with 6%Z in O.
  split; [exact F|]. split; [exact O|]. split; [|vm_compute; reflexivity].
  intros j Hj [_ K]. destruct O as [[_ O]|[O _]]; [discriminate|]. pose proof (p10_le j 6 ltac:(lia)). lra.
Qed.

(** C28: default notation.  Missing: the numbers excluded above, and with
    showpoint those with as many digits before the point as the precision. *)
Theorem C28_default_partial :
  forall d x os k, valid_digits d -> finite d x -> (Z.abs (exp x) < 2 ^ 63)%Z -> f_scientific os = false -> f_fixed os = false ->
  (s_precision os < 2 ^ 63)%Z -> decimal_order (value x) k ->
  let p := (if (s_precision os <=? 0)%Z then 6 else s_precision os)%Z in
  let sci := ((k <? -4) || (Z.min d (Z.max p 6) <=? k))%Z in
  (sci = false -> forall j, (j <= - p)%Z -> ~ powerRZ 10 j / 2 <= Rabs (value x) < powerRZ 10 j) ->
  (f_showpoint os = true -> sci = false -> (k < 0 \/ k + 2 <= p)%Z) ->
  exists l, wr_string d x os = Ok (justified (s_fill os) (s_width os) (f_left os) (text l)) /\
    valid_literal l /\ l_sign l = shown_sign (neg x) (f_showpos os) /\
    (if sci then scientific (f_uppercase os) (value x) l else positional l) /\
    (if f_showpoint os then l_point l = true /\ (hd 0%Z (l_int l) <> 0%Z -> Z.of_nat (length (l_int l ++ l_frac l)) = p)
     else (l_point l = true <-> l_frac l <> []) /\ trimmed (l_frac l)) /\
    rounded_to (powerRZ 10 (k + 1 - Z.min (d + 1) (if (sci || (0 <=? k)%Z) then p else Z.max (k + 1 + p) 0))) (value x) (literal_value l).
Proof. exact default_cor. Qed.
Print Assumptions C28_default_partial.

Example C28_default_hypotheses_met :
  let x := of_sll 30 (-1200) in let os := mkstream false false false true false false 7 0 " " in
  finite 30 x /\ (Z.abs (exp x) < 2 ^ 63)%Z /\ decimal_order (value x) 3 /\ (3 + 2 <= s_precision os)%Z /\
  (forall j, (j <= - 7)%Z -> ~ powerRZ 10 j / 2 <= Rabs (value x) < powerRZ 10 j) /\
  wr_string 30 x os = Ok (chars "-1200.000") /\
  wr_string 30 x (mkstream false false false false false false 7 0 " ") = Ok (chars "-1200").
Proof.
  cbv zeta. assert (F : finite 30 (of_sll 30 (-1200))) by (apply wfb_finite; vm_compute; reflexivity).
  pose proof (order_decimal 30 _ valid_30 F) as O. change (order (of_sll 30 (-1200))) with 3%Z in O.
  split; [exact F|]. split; [vm_compute; reflexivity|]. split; [exact O|]. split; [vm_compute; discriminate|]. split; [|split; vm_compute; reflexivity].
  intros j Hj [_ K]. destruct O as [[_ O]|[O _]]; [discriminate|]. pose proof (p10_le j 3 ltac:(lia)). lra.
Qed.

(** C28, C29: 0.009 cannot be written with two decimals; 123 cannot be written
    with showpoint and precision 2. *)
Theorem C28_C29_output_refuted :
  (exists x, of_string 30 (chars "0.009") = Ok x /\ finite 30 x /\
     wr_string 30 x (mkstream false true false false false false 2 0 " ") = Throws) /\
  wr_string 30 (of_sll 30 123) (mkstream false false false true false false 2 0 " ") = Throws.
Proof. exact output_ex. Qed.
Print Assumptions C28_C29_output_refuted.

(** C29: writing returns normally, except in the two situations above. *)
Theorem C29_no_exception_partial :
  forall d x os k, valid_digits d -> wf d x -> (Z.abs (exp x) < 2 ^ 63)%Z -> (s_precision os < 2 ^ 63)%Z -> decimal_order (value x) k ->
  let p := (if (s_precision os <=? 0)%Z then 6 else s_precision os)%Z in
  cls x <> Finite \/ f_scientific os = true \/
  (f_fixed os = false /\ (k < -4 \/ Z.min d (Z.max p 6) <= k)%Z) \/
  ((forall j, (j <= - p)%Z -> ~ powerRZ 10 j / 2 <= Rabs (value x) < powerRZ 10 j) /\
   (f_fixed os = true \/ f_showpoint os = false \/ (k < 0 \/ k + 2 <= p)%Z)) ->
  exists t, wr_string d x os = Ok t.
Proof. exact never_throws. Qed.
Print Assumptions C29_no_exception_partial.

(** C29: infinities and NaN. *)
Theorem C29_nonfinite :
  forall d x os, cls x <> Finite -> exists t, wr_string d x os = Ok t /\
  (is_nan x -> t = chars (if f_uppercase os then "NAN" else "nan")%string) /\
  (forall b, is_inf x b -> t = sign_text (shown_sign b (f_showpos os)) ++ chars (if f_uppercase os then "INF" else "inf")%string).
Proof. exact nonfinite_cor. Qed.
Print Assumptions C29_nonfinite.

Example C29_hypotheses_met :
  wf 30 (of_sll 30 5) /\ decimal_order (value (of_sll 30 5)) 0 /\ cls (signed_inf 30 true) <> Finite /\
  wr_string 30 (signed_inf 30 true) (mkstream false false false true true false 2 0 " ") = Ok (chars "-INF").
Proof.
  assert (F : finite 30 (of_sll 30 5)) by (apply wfb_finite; vm_compute; reflexivity).
  split; [apply F|]. split; [exact (order_decimal 30 _ valid_30 F)|]. split; [vm_compute; discriminate|vm_compute; reflexivity].
Qed.

(** C30: writing in scientific notation and reading the text into any finite
    object gives the number rounded to the printed digits; in particular
    numbers that have no more digits come back unchanged.  The range contains
    all numbers between min() and max(). *)
Theorem C30_round_trip :
  forall d x y os k, valid_digits d -> finite d x -> (Z.abs (exp x) < 2 ^ 63)%Z ->
  (value x = 0 \/ powerRZ 10 (-2147483616) <= Rabs (value x) < powerRZ 10 2147483623) ->
  cls y = Finite -> (2 <= prec y <= elem_number d)%Z ->
  f_scientific os = true -> (s_width os <= 0)%Z -> (s_precision os <= 2147483000)%Z -> decimal_order (value x) k ->
  let p := (if (s_precision os <=? 0)%Z then 6 else s_precision os)%Z in
  let unit := powerRZ 10 (k + 1 - (Z.min (d + 1) p + 1)) in
  exists t r, wr_string d x os = Ok t /\ rd_string d y t = Ok r /\ finite d r /\
    rounded_to unit (value x) (value r) /\ ((exists j, value x = IZR j * unit) -> value r = value x).
Proof. exact round_trip_cor. Qed.
Print Assumptions C30_round_trip.

Example C30_hypotheses_met :
  let x := of_sll 30 (-1234567) in let os := mkstream true false false false false false 31 0 " " in
  finite 30 x /\ (Z.abs (exp x) < 2 ^ 63)%Z /\ decimal_order (value x) 6 /\
  powerRZ 10 (-2147483616) <= Rabs (value x) < powerRZ 10 2147483623 /\
  match wr_string 30 x os with
  | Ok t => match rd_string 30 (zero 30) t with Ok r => op_eq r x = true | _ => False end
  | _ => False end.
Proof.
  cbv zeta. assert (F : finite 30 (of_sll 30 (-1234567))) by (apply wfb_finite; vm_compute; reflexivity).
  pose proof (order_decimal 30 _ valid_30 F) as O. change (order (of_sll 30 (-1234567))) with 6%Z in O.
  split; [exact F|]. split; [vm_compute; reflexivity|]. split; [exact O|]. split; [|vm_compute; reflexivity].
  destruct O as [[_ O]|[O1 O2]]; [discriminate|]. pose proof (p10_le (-2147483616) 6 ltac:(lia)). pose proof (p10_lt (6 + 1) 2147483623 ltac:(lia)). lra.
Qed.
