(** * The gamma function over real and complex numbers

    The templates of ModelGamma.v with real numbers, and complex numbers with real
    components, in place of e_float and complex<e_float>.  The choice of the series for
    small arguments, its value, the asymptotic series, the factorials and NaN are
    parameters. *)

From Coq Require Import ZArith List Bool Reals Lra Lia.
From Coquelicot Require Import Complex.
From Verif Require Import Model ModelDiv ModelStr ModelGen ComplexReal ModelCplx SpecCplx CplxReal CplxProofs ModelGamma.
Open Scope R_scope.

Definition lessb (x y : R) : bool := if Rlt_dec x y then true else false.
Definition whole (x : R) : bool := if Req_EM_T x (IZR (Int_part x)) then true else false.
Definition zerob (x : R) : bool := if Req_EM_T x 0 then true else false.
(* truncation towards zero, clamped to 64 bits *)
Definition trunc64 (x : R) : io Z :=
  Ok (Z.min (Z.max (if Rlt_dec x 0 then - Int_part (- x) else Int_part x) (-9223372036854775808)) 9223372036854775807).

Section Instances.
Variables (nan : R) (fact : Z -> io R).
Variables (small : R -> bool) (series : R -> R) (stirling : R -> io R).
Definition real_ops : gops R R := mkgops R R (fun x => x) (fun x => x) (fun _ => true) (fun x => lessb x 0) whole zerob trunc64 (fun x n => lessb x (IZR n)) nan fact
  Ropp Rmult Rdiv (fun x n => x + IZR n) (fun x => x + 1) (fun x => x - 1) (fun n x => IZR n - x) (fun n x => IZR n + x) sin (Rmult PI) (Rdiv PI) (Rdiv (- PI)) small series stirling.

Variables (c_small : cx R -> bool) (c_series : cx R -> cx R) (c_stirling : cx R -> io (cx R)).
Definition cplx_ops : gops (cx R) R := mkgops (cx R) R re (fun x => mkcx x 0) (fun _ => true) (fun x => lessb x 0) whole zerob trunc64 (fun x n => lessb x (IZR n)) nan fact
  (c_neg Ropp) (op_cmul Rplus Rminus Rmult rtwice) (op_ediv 0 1 Rplus Rminus Rmult Rinv) (fun z n => mkcx (re z + IZR n) (im z)) (fun z => cr_add Rplus z 1) (fun z => cr_sub Rminus z 1)
  (fun n z => rc_sub Rminus Ropp (IZR n) z) (fun n z => rc_add Rplus (IZR n) z) Rsin (er_mul Rmult PI) (re_div Rplus Rmult Rdiv Ropp PI) (re_div Rplus Rmult Rdiv Ropp (- PI)) c_small c_series c_stirling.
End Instances.
