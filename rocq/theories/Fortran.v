(** * FORTRAN two-loop routines
    GENERATED by tools/gen_fort.py from source/himalaya/mh2l/DSZHiggs.f, statement by statement.  FORTRAN is case insensitive: all names are in lower case.
    Output arguments are results, in the order of the dummy argument list.  Assignments to input arguments are only made by DDSHiggs and
    DDSodd (their guards, [dds_guards]).  A variable that is not assigned on some path is [undef].  x**2.0d0 is x*x.
    Not translated (fields of [FExt]): the complex dilogarithm cdli2 of Li2.f90 [fx_li2: real part for a real argument], the branch of myphi
    with complex logarithms [fx_phi u v, u = x/z, v = y/z], makefuncs with its 3300-line helper makederiv [fx_makefuncs].
    Not modelled: the tadpole routines (DDStad, ewsb2loop, taubottad, tausqtad), which the library never calls. *)
From Coq Require Import ZArith Bool List.
From Verif Require Import Num Except DSZ.

(** external routines *)
Record FExt (T : Type) := mkFExt {
  fx_li2 : T -> T;
  fx_phi : T -> T -> T;
  (* arguments as in makefuncs (source/himalaya/mh2l/DSZHiggs.f:476); results in the order of its dummy arguments *)
  fx_makefuncs : T -> T -> T -> T -> T -> T -> T -> T -> T -> T -> T -> T -> T -> T -> T -> Z ->
    T * T * T * T * T * T * T * T * T * T * T * T * T * T * T }.
Arguments mkFExt {T}. Arguments fx_li2 {T}. Arguments fx_phi {T}. Arguments fx_makefuncs {T}.

Section Fortran.
  Context {T : Type} {N : Num T} (fx : FExt T).
  Open Scope num_scope.
  Local Notation "a + b" := (@nadd T N a b). Local Notation "a - b" := (@nsub T N a b).
  Local Notation "a * b" := (@nmul T N a b). Local Notation "a / b" := (@ndiv T N a b).
  Local Notation "- a" := (@nneg T N a). Local Notation "# z" := (@nint T N z) (at level 1, z constr at level 0).
  Local Notation ndec := (@Num.ndec T N). Local Notation nlog := (@Num.nlog T N). Local Notation nsqrt := (@Num.nsqrt T N).
  Local Notation pow2 := (@Num.pow2 T N). Local Notation pow3 := (@Num.pow3 T N). Local Notation pow4 := (@Num.pow4 T N).
  Definition undef : T := #0 / #0.
  (** the parameter pi of the routines *)
  Definition pi_f : T := ndec 31415926535897932 16.

  (** source/himalaya/mh2l/DSZHiggs.f:5261-5272; pLi2 is the real part of the complex dilogarithm *)
  Definition f_pli2 (x : T) : T := fx_li2 fx x.

  (** source/himalaya/mh2l/DSZHiggs.f:5183-5235 *)
  Definition f_myphi (x : T) (y : T) (z : T) : T :=
    let u := x / z in
    let v := y / z in
    let myphi := undef in
    let myphi :=
      if (u <=? ndec 1 8) then
        let myphi :=
          if negb (v =? #1) then
            let myphi := (nlog u * (nlog v) + #2 * (f_pli2 (#1 - v))) / (#1 - v) in
            myphi
          else
            let myphi := #2 - nlog u in
            myphi in
        myphi
      else if (v <=? ndec 1 8) then
        let myphi :=
          if negb (u =? #1) then
            let myphi := (nlog v * (nlog u) + #2 * (f_pli2 (#1 - u))) / (#1 - u) in
            myphi
          else
            let myphi := #2 - nlog v in
            myphi in
        myphi
      else
        let myphi := fx_phi fx u v in
        myphi in
    myphi.

  (** source/himalaya/mh2l/DSZHiggs.f:5160-5177 *)
  Definition f_phi (x : T) (y : T) (z : T) : T :=
    let pphi := undef in
    let pphi :=
      if (x <=? z) && (y <=? z) then
        let pphi := f_myphi x y z in
        pphi
      else if (z <=? x) && (y <=? x) then
        let pphi := z / x * (f_myphi z y x) in
        pphi
      else if (z <=? y) && (x <=? y) then
        let pphi := z / y * (f_myphi z x y) in
        pphi
      else pphi in
    let phi := pphi in
    phi.

  (** source/himalaya/mh2l/DSZHiggs.f:5242-5255 *)
  Definition f_delt (x : T) (y : T) (z : T) : T :=
    let delt := undef in
    let delt :=
      if (y =? z) then
        let delt := pow2 x - #2 * (x * y + x * z) in
        delt
      else
        let delt := pow2 x + pow2 y + pow2 z - #2 * (x * y + x * z + y * z) in
        delt in
    delt.

  (** source/himalaya/mh2l/DSZHiggs.f:5028-5038 *)
  Definition f_myaa (m : T) (q : T) : T :=
    let myaa := undef in
    let myaa :=
      if negb (m =? #0) then
        let myaa := m * (#1 - nlog (m / q)) in
        myaa
      else
        let myaa := #0 in
        myaa in
    myaa.

  (** source/himalaya/mh2l/DSZHiggs.f:5100-5117 *)
  Definition f_omega (a : T) (b : T) : T :=
    let cbig := (a + b) / #2 - pow2 (a - b) / #4 - #1 / #4 in
    let omega := undef in
    let '(omega, cbig) :=
      if (cbig >? #0) then
        let omega := nsqrt cbig * (natan ((#1 + a - b) / (#2 * (nsqrt cbig))) + natan ((#1 - a + b) / (#2 * (nsqrt
          cbig)))) in
        (omega, cbig)
      else if (cbig <? #0) then
        let cbig := - cbig in
        let omega := #1 / #2 * (nsqrt cbig) * (nlog ((a / #2 + b / #2 - #1 / #2 - nsqrt cbig) / (a / #2 + b / #2 - #1
          / #2 + nsqrt cbig))) in
        (omega, cbig)
      else
        let omega := #0 in
        (omega, cbig) in
    omega.

  (** source/himalaya/mh2l/DSZHiggs.f:5045-5097 *)
  Definition f_myb0 (q : T) (m1 : T) (m2 : T) (mu2 : T) : T :=
    let myb0 := undef in
    let myb0 :=
      if (q =? #0) then
        let myb0 :=
          if (m1 =? #0) && negb (m2 =? #0) then
            let myb0 := #1 - nlog (m2 / mu2) in
            myb0
          else if negb (m1 =? #0) && (m2 =? #0) then
            let myb0 := #1 - nlog (m1 / mu2) in
            myb0
          else if (m1 =? m2) then
            let myb0 := - (nlog (m1 / mu2)) in
            myb0
          else
            let myb0 := #1 - nlog (m2 / mu2) + m1 / (m1 - m2) * (nlog (m2 / m1)) in
            myb0 in
        myb0
      else
        let myb0 :=
          if (m1 =? #0) && negb (m2 =? #0) then
            let myb0 :=
              if negb (m2 =? q) then
                let myb0 := - (nlog (m2 / mu2) - #2 - (m2 / q - #1) * (nlog (nabs (#1 - q / m2)))) in
                myb0
              else
                let myb0 := - (nlog (m2 / mu2) - #2) in
                myb0 in
            myb0
          else if (m2 =? #0) && negb (m1 =? #0) then
            let myb0 :=
              if negb (m1 =? q) then
                let myb0 := - (nlog (m1 / mu2) - #2 - (m1 / q - #1) * (nlog (nabs (#1 - q / m1)))) in
                myb0
              else
                let myb0 := - (nlog (m1 / mu2) - #2) in
                myb0 in
            myb0
          else if (m2 =? #0) && (m1 =? #0) then
            let myb0 := - (nlog (q / mu2) - #2) in
            myb0
          else
            let myb0 := - (nlog (q / mu2) - #2 + #1 / #2 * (#1 + (m1 / q - m2 / q)) * (nlog (m1 / q)) + #1 / #2 * (#1
              - (m1 / q - m2 / q)) * (nlog (m2 / q)) + #2 * (f_omega (m1 / q) (m2 / q))) in
            myb0 in
        myb0 in
    myb0.

  (** source/himalaya/mh2l/DSZHiggs.f:4393-4406 *)
  Definition f_strf1ab (t : T) (t1 : T) (t2 : T) (s2t : T) (c2t : T) (q : T) : T :=
    let strf1ab := - (#6 * (#1 - nlog (t / q))) + #5 * (nlog (t1 * t2 / (pow2 t))) + pow2 (nlog (t1 * t2 / (pow2 t)))
      + #8 * (pow2 (nlog (t / q))) - #4 * (pow2 (nlog (t1 / q))) - #4 * (pow2 (nlog (t2 / q))) - pow2 c2t * (#2 -
      nlog (t1 / q) - nlog (t2 / q) - pow2 (nlog (t1 / t2))) - pow2 s2t * (t1 / t2 * (#1 - nlog (t1 / q)) + t2 / t1 *
      (#1 - nlog (t2 / q))) in
    strf1ab.

  (** source/himalaya/mh2l/DSZHiggs.f:4412-4435 *)
  Definition f_strf1c (t : T) (mg : T) (t1 : T) (s2t : T) (q : T) : T :=
    let mt := nsqrt t in
    let g := pow2 mg in
    let del := pow2 g + pow2 t + pow2 t1 - #2 * (g * t + g * t1 + t * t1) in
    let strf1c := #4 * (t + g - mg * mt * s2t) / t1 * (#1 - nlog (g / q)) + #4 * (nlog (t / g)) - #2 * (nlog (t1 /
      g)) + #2 / del * (#4 * (pow2 g) * (nlog (t1 / g)) + (pow2 g - pow2 t1 + t * (#10 * g + #3 * t + #2 * t * g / t1
      - #2 * (pow2 t) / t1)) * (nlog (t / g))) + #2 * mg / mt * s2t * (pow2 (nlog (t1 / q)) + #2 * (nlog (t / q)) *
      (nlog (t1 / q))) + #4 * mg / mt * s2t / del * (g * (t1 - t - g) * (nlog (t1 / g)) + t * (t1 - #3 * g - #2 * t -
      (t * g - pow2 t) / t1) * (nlog (t / g))) + (#4 * g * (t + g - t1 - #2 * mg * mt * s2t) / del - #4 * mg / mt *
      s2t) * (f_phi t t1 g) in
    strf1c.

  (** source/himalaya/mh2l/DSZHiggs.f:4441-4455 *)
  Definition f_strf2ab (t1 : T) (t2 : T) (s2t : T) (c2t : T) (q : T) : T :=
    let strf2ab := #5 * (nlog (t1 / t2)) - #3 * (pow2 (nlog (t1 / q)) - pow2 (nlog (t2 / q))) + pow2 c2t * (#5 *
      (nlog (t1 / t2)) - (t1 + t2) / (t1 - t2) * (pow2 (nlog (t1 / t2))) - #2 / (t1 - t2) * (t1 * (nlog (t1 / q)) -
      t2 * (nlog (t2 / q))) * (nlog (t1 / t2))) + pow2 s2t * (t1 / t2 * (#1 - nlog (t1 / q)) - t2 / t1 * (#1 - nlog
      (t2 / q))) in
    strf2ab.

  (** source/himalaya/mh2l/DSZHiggs.f:4461-4490 *)
  Definition f_strf2c (t : T) (mg : T) (t1 : T) (t2 : T) (s2t : T) (q : T) : T :=
    let mt := nsqrt t in
    let g := pow2 mg in
    let del := pow2 g + pow2 t + pow2 t1 - #2 * (g * t + g * t1 + t * t1) in
    let strf2c := #4 * (t + g) / t1 - #4 * mg / mt * s2t / (t1 - t2) * (#3 * t1 - t * t2 / t1) + #2 * mg / mt * s2t /
      (t1 - t2) * ((#4 * t + #5 * t1 + t2) * (nlog (t1 / q)) - #2 * t * t2 / t1 * (nlog (g / q))) - #4 * (g + t) / t1
      * (nlog (g / q)) - #2 * (nlog (t1 / g)) + #2 / del * (#2 * g * (g + t - t1) * (nlog (t1 / g)) + #2 * t * (#3 *
      g + #2 * t - t1 + (g * t - pow2 t) / t1) * (nlog (t / g))) - #4 * mg * mt * s2t / del / t1 * (#2 * g * t1 *
      (nlog (t1 / g)) - (pow2 (t - t1) - g * (t + t1)) * (nlog (t / g))) - #8 * mg * mt / s2t / (t1 - t2) * (nlog (t1
      / q) - nlog (t / q) * (nlog (t1 / q))) - mg / mt * s2t / (t1 - t2) * ((t1 + t2) * (pow2 (nlog (t1 / q))) + (#10
      * t - #2 * g + t1 + t2) * (nlog (t / q)) * (nlog (t1 / q)) + (#2 * g - #2 * t + t1 + t2) * (nlog (t1 / q)) *
      (nlog (g / q))) + (#8 * g * t / del - #8 * mg * mt / s2t / (t1 - t2) + #2 * s2t / mg / mt / (t1 - t2) * (#4 * g
      * t - del) + s2t / mg / mt / del * (pow3 (t1 - g - t))) * (f_phi t t1 g) in
    strf2c.

  (** source/himalaya/mh2l/DSZHiggs.f:4496-4514 *)
  Definition f_strf3ab (t1 : T) (t2 : T) (s2t : T) (c2t : T) (q : T) : T :=
    let strf3ab := (#3 + #9 * (pow2 c2t)) * (#2 - (t1 + t2) / (t1 - t2) * (nlog (t1 / t2))) + #4 - (#3 + #13 * (pow2
      c2t)) / (t1 - t2) * (t1 * (nlog (t1 / q)) - t2 * (nlog (t2 / q))) + #3 * (t1 + t2) / (t1 - t2) * (pow2 (nlog
      (t1 / q)) - pow2 (nlog (t2 / q))) - pow2 c2t * (#4 - pow2 ((t1 + t2) / (t1 - t2)) * (pow2 (nlog (t1 / t2))) -
      #6 * (t1 + t2) / (pow2 (t1 - t2)) * (t1 * (nlog (t1 / q)) - t2 * (nlog (t2 / q))) * (nlog (t1 / t2))) - pow2
      s2t * (t1 / t2 + t2 / t1 + #2 * (nlog (t1 * t2 / (pow2 q))) - pow2 t1 / t2 / (t1 - t2) * (nlog (t1 / q)) + pow2
      t2 / t1 / (t1 - t2) * (nlog (t2 / q))) in
    strf3ab.

  (** source/himalaya/mh2l/DSZHiggs.f:4520-4552 *)
  Definition f_strf3c (t : T) (mg : T) (t1 : T) (t2 : T) (s2t : T) (q : T) : T :=
    let mt := nsqrt t in
    let g := pow2 mg in
    let del := pow2 g + pow2 t + pow2 t1 - #2 * (g * t + g * t1 + t * t1) in
    let strf3c := - (#4 * t2 / t1 / (t1 - t2) * (g + t)) + #4 * mg * mt * s2t / (pow2 (t1 - t2)) * (#21 * t1 - pow2
      t2 / t1) + #4 / (t1 - t2) * (g * t2 / t1 * (nlog (g / q)) - #2 * (t + g) * (nlog (t1 / q))) - #24 * mg * mt *
      s2t / (pow2 (t1 - t2)) * (#3 * t1 + t2) * (nlog (t1 / q)) + #4 * t / t1 / del * (#2 * g * t1 * (nlog (t1 / q))
      - g * (g - t + t1) * (nlog (g / q)) + (g * (t + t1) - pow2 (t - t1)) * (nlog (t / q))) - #4 * mg * mt * s2t /
      t1 / del * (t * (g - t + t1) * (nlog (t / q)) - g * (g - t - t1) * (nlog (g / q)) + t1 * (g + t - t1) * (nlog
      (t1 / q))) + #2 * (#2 * g + #2 * t - t1 - t2) / (t1 - t2) * (nlog (g * t / (pow2 q))) * (nlog (t1 / q)) + #12 *
      mg * mt * s2t / (pow2 (t1 - t2)) * (#2 * (g - t) * (nlog (g / t)) * (nlog (t1 / q)) + (t1 + t2) * (nlog (t * g
      / (pow2 q))) * (nlog (t1 / q))) + #8 * mg * mt / s2t / (pow2 (t1 - t2)) * (- (#8 * t1) + #2 * (#3 * t1 + t2) *
      (nlog (t1 / q)) - #2 * (g - t) * (nlog (g / t)) * (nlog (t1 / q)) - (t1 + t2) * (nlog (t * g / (pow2 q))) *
      (nlog (t1 / q))) - ((#8 / s2t - #12 * s2t) * mt / mg / (pow2 (t1 - t2)) * (#2 * del + (g + t - t1) * (t1 - t2))
      + (#4 * del + #8 * g * t) / g / (t1 - t2) + #2 * (g + t - t1) / g - #4 * t * (g + t - t1 - #2 * mg * mt * s2t)
      / del) * (f_phi t t1 g) in
    strf3c.

  (** source/himalaya/mh2l/DSZHiggs.f:4368-4387 *)
  Definition f_strfuncs (t : T) (mg : T) (t1 : T) (t2 : T) (s2t : T) (c2t : T) (q : T) : T * T * T :=
    let f1 := f_strf1ab t t1 t2 s2t c2t q + f_strf1c t mg t1 s2t q + f_strf1c t mg t2 (- s2t) q in
    let f2 := f_strf2ab t1 t2 s2t c2t q + f_strf2c t mg t1 t2 s2t q - f_strf2c t mg t2 t1 (- s2t) q in
    let f3 := f_strf3ab t1 t2 s2t c2t q + f_strf3c t mg t1 t2 s2t q + f_strf3c t mg t2 t1 (- s2t) q in
    (f1, f2, f3).

  (** source/himalaya/mh2l/DSZHiggs.f:4558-4573 *)
  Definition f_strsfuncs (mg : T) (t1 : T) (t2 : T) (q : T) (a : T) : T * T :=
    let sf2 := mg / a * #2 * (pow2 (nlog (t2 / q)) - pow2 (nlog (t1 / q))) in
    let sf3 := mg / a * (#8 - #2 * (t1 + t2) / (t1 - t2) * (pow2 (nlog (t2 / q)) - pow2 (nlog (t1 / q))) + #8 / (t1 -
      t2) * (t2 * (nlog (t2 / q)) - t1 * (nlog (t1 / q)))) in
    (sf2, sf3).

  (** source/himalaya/mh2l/DSZHiggs.f:4579-4601 *)
  Definition f_strresfuncs (t : T) (mg : T) (t1 : T) (t2 : T) (q : T) : T * T * T :=
    let mt := nsqrt t in
    let g := pow2 mg in
    let f2_s := - (#8 * mg * mt / (t1 - t2) * (nlog (t1 / q) - nlog (t / q) * (nlog (t1 / q)) + f_phi t t1 g - (nlog
      (t2 / q) - nlog (t / q) * (nlog (t2 / q)) + f_phi t t2 g))) in
    let sf2_a := mg * #2 * (pow2 (nlog (t2 / q)) - pow2 (nlog (t1 / q))) in
    let sf3_a := mg * (#8 - #2 * (t1 + t2) / (t1 - t2) * (pow2 (nlog (t2 / q)) - pow2 (nlog (t1 / q))) + #8 / (t1 -
      t2) * (t2 * (nlog (t2 / q)) - t1 * (nlog (t1 / q)))) in
    (f2_s, sf2_a, sf3_a).

  (** source/himalaya/mh2l/DSZHiggs.f:4607-4679 *)
  Definition f_strdfuncs (t : T) (mg : T) (t1 : T) (t2 : T) (s2t : T) (c2t : T) (q : T) (at_ : T) (x : T) : T * T * T * T * T :=
    let msdr := - #5 in
    let mt := nsqrt t in
    let g := pow2 mg in
    let f1o := nlog (t1 / q) + nlog (t2 / q) - #2 * (nlog (t / q)) in
    let f2o := nlog (t1 / q) - nlog (t2 / q) in
    let f3o := #2 - (t1 + t2) / (t1 - t2) * (nlog (t1 / q) - nlog (t2 / q)) in
    let dmt := mt * (#3 * (nlog (t / q)) + msdr + ndec 5 1 * (#2 * g / t * (nlog (g / q) - #1) - t1 / t * (nlog (t1 /
      q) - #1) - t2 / t * (nlog (t2 / q) - #1) + (g + t - t1 - #2 * s2t * mg * mt) / t * (f_myb0 t g t1 q) + (g + t -
      t2 + #2 * s2t * mg * mt) / t * (f_myb0 t g t2 q))) in
    let dm1 := t1 * (#3 * (nlog (t1 / q)) - #7 - pow2 c2t * (nlog (t1 / q) - #1) - pow2 s2t * t2 / t1 * (nlog (t2 /
      q) - #1) + #2 * (g / t1 * (nlog (g / q) - #1) + t / t1 * (nlog (t / q) - #1) + (t1 - g - t + #2 * s2t * mg *
      mt) / t1 * (f_myb0 t1 t g q))) in
    let dm2 := t2 * (#3 * (nlog (t2 / q)) - #7 - pow2 c2t * (nlog (t2 / q) - #1) - pow2 s2t * t1 / t2 * (nlog (t1 /
      q) - #1) + #2 * (g / t2 * (nlog (g / q) - #1) + t / t2 * (nlog (t / q) - #1) + (t2 - g - t - #2 * s2t * mg *
      mt) / t2 * (f_myb0 t2 t g q))) in
    let dth := (#4 * mg * mt * c2t * (f_myb0 t1 t g q + f_myb0 t2 t g q) + #2 * c2t * s2t * (t2 * (#1 - nlog (t2 /
      q)) - t1 * (#1 - nlog (t1 / q)))) / #2 / (t1 - t2) in
    let ds2t := #2 * c2t * dth in
    let dat := ((dm1 - dm2) / (t1 - t2) + ds2t / s2t - dmt / mt) * x in
    let df1 := dm1 / t1 + dm2 / t2 - #4 * dmt / mt + #4 * dmt / mt * f1o in
    let df2 := dm1 / t1 - dm2 / t2 + (#3 * dmt / mt + ds2t / s2t) * f2o in
    let df3 := (#2 * t1 * t2 / (pow2 (t1 - t2)) * (nlog (t1 / t2)) - (t1 + t2) / (t1 - t2)) * (dm1 / t1 - dm2 / t2) +
      (#2 * dmt / mt + #2 * ds2t / s2t) * f3o in
    let dsf2 := dat / at_ * f2o in
    let dsf3 := dat / at_ * f3o in
    let '(df2, dsf2) :=
      if (s2t =? #0) then
        let df2 := ds2t * f2o in
        let dsf2 := ds2t * x / at_ * f2o in
        (df2, dsf2)
      else (df2, dsf2) in
    let '(dsf2, dsf3) :=
      if (at_ =? #0) then
        let dsf2 := dat * f2o in
        let dsf3 := dat * f3o in
        (dsf2, dsf3)
      else (dsf2, dsf3) in
    (df1, df2, df3, dsf2, dsf3).

  (** source/himalaya/mh2l/DSZHiggs.f:4258-4362 *)
  Definition f_dszhiggs (t : T) (mg : T) (t1 : T) (t2 : T) (st : T) (ct : T) (q : T) (mu : T) (tanb : T) (v2 : T) (gs : T) (os : Z) : T * T * T :=
    let mt := nsqrt t in
    let s2t := #2 * ct * st in
    let c2t := pow2 ct - pow2 st in
    let x := (t1 - t2) * s2t / #2 / mt in
    let a := x - mu / tanb in
    let sb := nsin (natan tanb) in
    let ht := nsqrt (#2 / v2) * mt / sb in
    let k := #4 * (pow2 gs) / (pow2 (#16 * (pow2 pi_f))) in
    let '(f1, f2, f3) := f_strfuncs t mg t1 t2 s2t c2t q in
    let '(sf2, sf3) := f_strsfuncs mg t1 t2 q a in
    let '(df1, df2, df3, dsf2, dsf3) := f_strdfuncs t mg t1 t2 s2t c2t q a x in
    let osdr := #1 * (nint os) in
    let s11 := undef in
    let s12 := undef in
    let s22 := undef in
    let f2_s := undef in
    let sf2_a := undef in
    let sf3_a := undef in
    let '(s11, s12, s22, f2_s, sf2_a, sf3_a) :=
      if negb (s2t =? #0) && negb (a =? #0) then
        let s11 := ndec 5 1 * (pow2 ht) * (pow2 mu) * (pow2 s2t) * (f3 + osdr * df3) in
        let s12 := ndec 5 1 * (pow2 ht) * mu * a * (pow2 s2t) * (f3 + sf3 + osdr * (df3 + dsf3)) + pow2 ht * mt * mu
          * s2t * (f2 + osdr * df2) in
        let s22 := ndec 5 1 * (pow2 ht) * (pow2 a) * (pow2 s2t) * (f3 + #2 * sf3 + osdr * (df3 + #2 * dsf3)) + #2 *
          (pow2 ht) * mt * a * s2t * (f2 + sf2 + osdr * (df2 + dsf2)) + #2 * (pow2 ht) * (pow2 mt) * (f1 + osdr *
          df1) in
        (s11, s12, s22, f2_s, sf2_a, sf3_a)
      else if (s2t =? #0) && (a =? #0) then
        let s11 := #0 in
        let s12 := #0 in
        let s22 := #2 * (pow2 ht) * (pow2 mt) * (f1 + osdr * df1) in
        (s11, s12, s22, f2_s, sf2_a, sf3_a)
      else if (s2t =? #0) && negb (a =? #0) then
        let '(f2_s, sf2_a, sf3_a) := f_strresfuncs t mg t1 t2 q in
        let s11 := #0 in
        let s12 := pow2 ht * mt * mu * (f2_s + osdr * df2) in
        let s22 := #2 * (pow2 ht) * (pow2 mt) * (f1 + osdr * df1) + #2 * (pow2 ht) * mt * a * (f2_s + osdr * df2) in
        (s11, s12, s22, f2_s, sf2_a, sf3_a)
      else if negb (s2t =? #0) && (a =? #0) then
        let '(f2_s, sf2_a, sf3_a) := f_strresfuncs t mg t1 t2 q in
        let s11 := ndec 5 1 * (pow2 ht) * (pow2 mu) * (pow2 s2t) * (f3 + osdr * df3) in
        let s12 := ndec 5 1 * (pow2 ht) * mu * (pow2 s2t) * (sf3_a + osdr * dsf3) + pow2 ht * mt * mu * s2t * (f2 +
          osdr * df2) in
        let s22 := #2 * (pow2 ht) * (pow2 mt) * (f1 + osdr * df1) + #2 * (pow2 ht) * mt * s2t * (sf2_a + osdr * dsf2)
          in
        (s11, s12, s22, f2_s, sf2_a, sf3_a)
      else (s11, s12, s22, f2_s, sf2_a, sf3_a) in
    let s11 := k * s11 in
    let s12 := k * s12 in
    let s22 := k * s22 in
    (s11, s22, s12).

  (** source/himalaya/mh2l/DSZHiggs.f:4781-4794 *)
  Definition f_strfaab (t1 : T) (t2 : T) (s2t : T) (q : T) : T :=
    let strfaab := (#8 - pow2 s2t * (#2 - (t1 + t2) / (t1 - t2) * (nlog (t1 / t2)))) * (t1 * (#1 - nlog (t1 / q)) -
      t2 * (#1 - nlog (t2 / q))) + #2 * (t1 * (pow2 (nlog (t1 / q))) - t2 * (pow2 (nlog (t2 / q)))) + #2 / (t1 - t2)
      * (pow2 (t1 * (nlog (t1 / q)) - t2 * (nlog (t2 / q)))) in
    strfaab.

  (** source/himalaya/mh2l/DSZHiggs.f:4800-4826 *)
  Definition f_strfac (t : T) (mg : T) (t1 : T) (t2 : T) (s2t : T) (a : T) (q : T) : T :=
    let mt := nsqrt t in
    let g := pow2 mg in
    let del := pow2 g + pow2 t + pow2 t1 - #2 * (g * t + g * t1 + t * t1) in
    let strfac := #16 * t1 / (t1 - t2) * mg * mt * s2t - #4 * (g + t) * (nlog (t1 / q)) - #2 * mg / a * t1 * (#5 - #4
      * (nlog (t1 / q))) - #4 * mg * mt * s2t * (#3 * t1 + t2) / (t1 - t2) * (nlog (t1 / q)) + #2 * (g + t - t1) *
      (nlog (t * g / (pow2 q))) * (nlog (t1 / q)) + #2 * t1 * (#1 + mg / a) * (nlog (g / q)) * (nlog (t / q)) - #2 *
      mg / a * ((g - t) * (nlog (g / t)) + t1 * (nlog (t * g / (pow2 q)))) * (nlog (t1 / q)) + #2 * mg * mt * s2t /
      (t1 - t2) * (#2 * (g - t) * (nlog (g / t)) + (t1 + t2) * (nlog (t * g / (pow2 q)))) * (nlog (t1 / q)) - (#4 * t
      + #2 * del / g * (#1 + mg / a) - #2 * mt / mg * s2t / (t1 - t2) * (#2 * del + (g + t - t1) * (t1 - t2))) *
      (f_phi t t1 g) in
    strfac.

  (** source/himalaya/mh2l/DSZHiggs.f:4832-4851 *)
  Definition f_strresfac (t : T) (mg : T) (t1 : T) (q : T) : T :=
    let g := pow2 mg in
    let del := pow2 g + pow2 t + pow2 t1 - #2 * (g * t + g * t1 + t * t1) in
    let strresfac := - (#2 * mg * t1 * (#5 - #4 * (nlog (t1 / q)))) + #2 * mg * t1 * (nlog (g / q)) * (nlog (t / q))
      - #2 * mg * ((g - t) * (nlog (g / t)) + t1 * (nlog (t * g / (pow2 q)))) * (nlog (t1 / q)) - #2 * del / mg *
      (f_phi t t1 g) in
    strresfac.

  (** source/himalaya/mh2l/DSZHiggs.f:4762-4775 *)
  Definition f_strfuncsodd (t : T) (mg : T) (t1 : T) (t2 : T) (s2t : T) (q : T) (a : T) : T * T :=
    let fa := f_strfaab t1 t2 s2t q + f_strfac t mg t1 t2 s2t a q - f_strfac t mg t2 t1 (- s2t) a q in
    let fa_a := f_strresfac t mg t1 q - f_strresfac t mg t2 q in
    (fa, fa_a).

  (** source/himalaya/mh2l/DSZHiggs.f:4694-4756 *)
  Definition f_dszodd (t : T) (mg : T) (t1 : T) (t2 : T) (st : T) (ct : T) (q : T) (mu : T) (tanb : T) (v2 : T) (gs : T) : T :=
    let mt := nsqrt t in
    let s2t := #2 * ct * st in
    let x := (t1 - t2) * s2t / #2 / mt in
    let a := x - mu / tanb in
    let sb := nsin (natan tanb) in
    let cb := ncos (natan tanb) in
    let ht := nsqrt (#2 / v2) * mt / sb in
    let k := #4 * (pow2 gs) / (pow2 (#16 * (pow2 pi_f))) in
    let '(fa, fa_a) := f_strfuncsodd t mg t1 t2 s2t q a in
    let dma := undef in
    let dma :=
      if negb (a =? #0) then
        let dma := pow2 ht * mu * a / (t1 - t2) / sb / cb * fa in
        dma
      else
        let dma := pow2 ht * mu / (t1 - t2) / sb / cb * fa_a in
        dma in
    let dma := k * dma in
    dma.

  (** source/himalaya/mh2l/DSZHiggs.f:5503-5520 *)
  Definition f_tauf1q (t : T) (b : T) (t1 : T) (t2 : T) (b1 : T) (b2 : T) (s2t : T) (c2t : T) (s2b : T) (c2b : T) (q : T) (mu : T) (vv : T) (tanb : T) : T :=
    let pippob := b1 * (nlog (b1 / q) - #1) - b2 * (nlog (b2 / q) - #1) in
    let pippot := t1 * (nlog (t1 / q) - #1) - t2 * (nlog (t2 / q) - #1) in
    let ht := nsqrt (#2 * t / vv) / (ncos (natan tanb)) in
    let hb := nsqrt (#2 * b / vv) / (ncos (natan tanb)) in
    let tauf1q := - (ndec 5 1 * ht * hb * s2t * s2b * (t1 - t2) / t1 / t2 * pippob) in
    tauf1q.

  (** source/himalaya/mh2l/DSZHiggs.f:5526-5544 *)
  Definition f_tauf2q (t : T) (b : T) (t1 : T) (t2 : T) (b1 : T) (b2 : T) (s2t : T) (c2t : T) (s2b : T) (c2b : T) (q : T) (mu : T) (vv : T) (tanb : T) : T :=
    let pippob := b1 * (nlog (b1 / q) - #1) - b2 * (nlog (b2 / q) - #1) in
    let pippot := t1 * (nlog (t1 / q) - #1) - t2 * (nlog (t2 / q) - #1) in
    let ht := nsqrt (#2 * t / vv) / (ncos (natan tanb)) in
    let hb := nsqrt (#2 * b / vv) / (ncos (natan tanb)) in
    let tauf2q := ndec 5 1 * ht * hb * s2b / s2t / t1 / t2 / (t1 - t2) * pippob * (pow2 s2t * (pow2 t1 - pow2 t2) +
      #2 * (pow2 c2t) * t1 * t2 * (nlog (t1 / t2))) in
    tauf2q.

  (** source/himalaya/mh2l/DSZHiggs.f:5550-5569 *)
  Definition f_tauf3q (t : T) (b : T) (t1 : T) (t2 : T) (b1 : T) (b2 : T) (s2t : T) (c2t : T) (s2b : T) (c2b : T) (q : T) (mu : T) (vv : T) (tanb : T) : T :=
    let pippob := b1 * (nlog (b1 / q) - #1) - b2 * (nlog (b2 / q) - #1) in
    let pippot := t1 * (nlog (t1 / q) - #1) - t2 * (nlog (t2 / q) - #1) in
    let ht := nsqrt (#2 * t / vv) / (ncos (natan tanb)) in
    let hb := nsqrt (#2 * b / vv) / (ncos (natan tanb)) in
    let tauf3q := - (ndec 5 1 * ht * hb * s2b / s2t / t1 / t2 / (pow2 (t1 - t2)) * pippob * ((t1 - t2) * (pow2 s2t *
      (pow2 (t1 + t2)) - #8 * (pow2 c2t) * t1 * t2) - #2 * (#3 * (pow2 s2t) - #2) * t1 * t2 * (t1 + t2) * (nlog (t1 /
      t2)))) in
    tauf3q.

  (** source/himalaya/mh2l/DSZHiggs.f:5575-5593 *)
  Definition f_tauf4q (t : T) (b : T) (t1 : T) (t2 : T) (b1 : T) (b2 : T) (s2t : T) (c2t : T) (s2b : T) (c2b : T) (q : T) (mu : T) (vv : T) (tanb : T) : T :=
    let pippob := b1 * (nlog (b1 / q) - #1) - b2 * (nlog (b2 / q) - #1) in
    let pippot := t1 * (nlog (t1 / q) - #1) - t2 * (nlog (t2 / q) - #1) in
    let ht := nsqrt (#2 * t / vv) / (ncos (natan tanb)) in
    let hb := nsqrt (#2 * b / vv) / (ncos (natan tanb)) in
    let tauf4q := ndec 5 1 * ht * hb * s2b / s2t / (t1 - t2) * (nlog (b1 / b2)) * (#2 * (pow2 c2t) * pippot + pow2
      s2t * (t1 - t2) * (nlog (t1 * t2 / (pow2 q)))) in
    tauf4q.

  (** source/himalaya/mh2l/DSZHiggs.f:5599-5621 *)
  Definition f_tauf5q (t : T) (b : T) (t1 : T) (t2 : T) (b1 : T) (b2 : T) (s2t : T) (c2t : T) (s2b : T) (c2b : T) (q : T) (mu : T) (vv : T) (tanb : T) : T :=
    let pippob := b1 * (nlog (b1 / q) - #1) - b2 * (nlog (b2 / q) - #1) in
    let pippot := t1 * (nlog (t1 / q) - #1) - t2 * (nlog (t2 / q) - #1) in
    let ht := nsqrt (#2 * t / vv) / (ncos (natan tanb)) in
    let hb := nsqrt (#2 * b / vv) / (ncos (natan tanb)) in
    let tauf5q := ndec 5 1 * hb * ht / s2b / s2t * (- (#4 * pippob * pippot / (b1 - b2) / (t1 - t2) * (#1 - pow2 c2b
      * (pow2 c2t))) + #2 * pippot * (pow2 s2b) * (pow2 c2t) / (t1 - t2) * (nlog (b1 * b2 / (pow2 q))) + #2 * pippob
      * (pow2 s2t) * (pow2 c2b) / (b1 - b2) * (nlog (t1 * t2 / (pow2 q))) + pow2 s2t * (pow2 s2b) * (nlog (b1 / q) *
      (nlog (t1 / q)) + nlog (b1 / q) * (nlog (t2 / q)) + nlog (b2 / q) * (nlog (t1 / q)) + nlog (b2 / q) * (nlog (t2
      / q)))) in
    tauf5q.

  (** source/himalaya/mh2l/DSZHiggs.f:5627-5644 *)
  Definition f_tauf6q (t : T) (b : T) (t1 : T) (t2 : T) (b1 : T) (b2 : T) (s2t : T) (c2t : T) (s2b : T) (c2b : T) (q : T) (mu : T) (vv : T) (tanb : T) : T :=
    let pippob := b1 * (nlog (b1 / q) - #1) - b2 * (nlog (b2 / q) - #1) in
    let pippot := t1 * (nlog (t1 / q) - #1) - t2 * (nlog (t2 / q) - #1) in
    let ht := nsqrt (#2 * t / vv) / (ncos (natan tanb)) in
    let hb := nsqrt (#2 * b / vv) / (ncos (natan tanb)) in
    let tauf6q := ndec 5 1 * ht * hb * s2t * s2b * (nlog (b1 / b2)) * (nlog (t1 / t2)) in
    tauf6q.

  (** source/himalaya/mh2l/DSZHiggs.f:5650-5668 *)
  Definition f_taufq (t : T) (b : T) (t1 : T) (t2 : T) (b1 : T) (b2 : T) (s2t : T) (c2t : T) (s2b : T) (c2b : T) (q : T) (mu : T) (vv : T) (tanb : T) : T :=
    let pippob := b1 * (nlog (b1 / q) - #1) - b2 * (nlog (b2 / q) - #1) in
    let pippot := t1 * (nlog (t1 / q) - #1) - t2 * (nlog (t2 / q) - #1) in
    let ht := nsqrt (#2 * t / vv) / (ncos (natan tanb)) in
    let hb := nsqrt (#2 * b / vv) / (ncos (natan tanb)) in
    let taufq := ndec 5 1 * ht * hb * s2b / s2t / (t1 - t2) * pippob * (#2 * (pow2 c2t) * pippot + pow2 s2t * (t1 -
      t2) * (nlog (t1 * t2 / (pow2 q)))) in
    taufq.

  (** source/himalaya/mh2l/DSZHiggs.f:5674-5691 *)
  Definition f_taugq (t : T) (b : T) (t1 : T) (t2 : T) (b1 : T) (b2 : T) (s2t : T) (c2t : T) (s2b : T) (c2b : T) (q : T) (mu : T) (vv : T) (tanb : T) : T :=
    let pippob := b1 * (nlog (b1 / q) - #1) - b2 * (nlog (b2 / q) - #1) in
    let pippot := t1 * (nlog (t1 / q) - #1) - t2 * (nlog (t2 / q) - #1) in
    let ht := nsqrt (#2 * t / vv) / (ncos (natan tanb)) in
    let hb := nsqrt (#2 * b / vv) / (ncos (natan tanb)) in
    let taugq := ndec 5 1 * hb * ht * s2b * s2t * pippob * (nlog (t1 / t2)) in
    taugq.

  (** source/himalaya/mh2l/DSZHiggs.f:5697-5722 *)
  Definition f_taufaq (t : T) (b : T) (t1 : T) (t2 : T) (b1 : T) (b2 : T) (s2t : T) (c2t : T) (s2b : T) (c2b : T) (q : T) (mu : T) (vv : T) (tanb : T) : T :=
    let pippob := b1 * (nlog (b1 / q) - #1) - b2 * (nlog (b2 / q) - #1) in
    let pippot := t1 * (nlog (t1 / q) - #1) - t2 * (nlog (t2 / q) - #1) in
    let ht := nsqrt (#2 * t / vv) / (ncos (natan tanb)) in
    let hb := nsqrt (#2 * b / vv) / (ncos (natan tanb)) in
    let xt := (t1 - t2) * s2t / #2 / (nsqrt t) in
    let xb := (b1 - b2) * s2b / #2 / (nsqrt b) in
    let at_ := xt - mu * tanb in
    let ab := xb - mu * tanb in
    let taufaq := #2 * ht * hb * (nsqrt t) * (nsqrt b) * tanb * (pow2 (ab - at_)) * (pow2 mu) / s2b / s2t / (pow2 (t1
      - t2)) / (pow2 (b1 - b2)) * pippot * pippob in
    taufaq.

  (** source/himalaya/mh2l/DSZHiggs.f:5463-5497 *)
  Definition f_makefuncstau (t : T) (b : T) (t1 : T) (t2 : T) (b1 : T) (b2 : T) (s2t : T) (c2t : T) (s2b : T) (c2b : T) (q : T) (mu : T) (vv : T) (tanb : T) : T * T * T * T * T * T * T * T * T * T * T * T * T * T * T :=
    let f1t := f_tauf1q t b t1 t2 b1 b2 s2t c2t s2b c2b q mu vv tanb in
    let f2t := f_tauf2q t b t1 t2 b1 b2 s2t c2t s2b c2b q mu vv tanb in
    let f3t := f_tauf3q t b t1 t2 b1 b2 s2t c2t s2b c2b q mu vv tanb in
    let f4t := f_tauf4q t b t1 t2 b1 b2 s2t c2t s2b c2b q mu vv tanb in
    let f1b := f_tauf1q b t b1 b2 t1 t2 s2b c2b s2t c2t q mu vv tanb in
    let f2b := f_tauf2q b t b1 b2 t1 t2 s2b c2b s2t c2t q mu vv tanb in
    let f3b := f_tauf3q b t b1 b2 t1 t2 s2b c2b s2t c2t q mu vv tanb in
    let f4b := f_tauf4q b t b1 b2 t1 t2 s2b c2b s2t c2t q mu vv tanb in
    let f5 := f_tauf5q t b t1 t2 b1 b2 s2t c2t s2b c2b q mu vv tanb in
    let f6 := f_tauf6q t b t1 t2 b1 b2 s2t c2t s2b c2b q mu vv tanb in
    let ft_ := f_taufq t b t1 t2 b1 b2 s2t c2t s2b c2b q mu vv tanb in
    let gt := f_taugq t b t1 t2 b1 b2 s2t c2t s2b c2b q mu vv tanb in
    let fb := f_taufq b t b1 b2 t1 t2 s2b c2b s2t c2t q mu vv tanb in
    let gb := f_taugq b t b1 b2 t1 t2 s2b c2b s2t c2t q mu vv tanb in
    let fap := f_taufaq t b t1 t2 b1 b2 s2t c2t s2b c2b q mu vv tanb in
    (f1t, f2t, f3t, f4t, f1b, f2b, f3b, f4b, f5, f6, ft_, fb, gt, gb, fap).

  (** source/himalaya/mh2l/DSZHiggs.f:5294-5353 *)
  Definition f_taubot (t : T) (b : T) (t1 : T) (t2 : T) (b1 : T) (b2 : T) (st : T) (ct : T) (sb : T) (cb : T) (q : T) (mu : T) (tanb : T) (vv : T) : T * T * T :=
    let mt := nsqrt t in
    let mb := nsqrt b in
    let s2t := #2 * ct * st in
    let s2b := #2 * cb * sb in
    let c2t := pow2 ct - pow2 st in
    let c2b := pow2 cb - pow2 sb in
    let xt := (t1 - t2) * s2t / #2 / mt in
    let xb := (b1 - b2) * s2b / #2 / mb in
    let at_ := xt - mu * tanb in
    let ab := xb - mu * tanb in
    let sbe := nsin (natan tanb) in
    let cbe := ncos (natan tanb) in
    let ht := nsqrt (#2 / vv) * mt / cbe in
    let hb := nsqrt (#2 / vv) * mb / cbe in
    let k := #3 / (pow2 (#16 * (pow2 pi_f))) in
    let '(f1t, f2t, f3t, f4t, f1b, f2b, f3b, f4b, f5, f6, ft_, fb, gt, gb, fap) := f_makefuncstau t b t1 t2 b1 b2 s2t
      c2t s2b c2b q mu vv tanb in
    let s11 := #2 * (pow2 hb) * (pow2 mb) * f1b + #2 * (pow2 hb) * ab * mb * s2b * f2b + ndec 5 1 * (pow2 hb) * (pow2
      ab) * (pow2 s2b) * f3b + #2 * (pow2 ht) * (pow2 mt) * f1t + #2 * (pow2 ht) * at_ * mt * s2t * f2t + ndec 5 1 *
      (pow2 ht) * (pow2 at_) * (pow2 s2t) * f3t + #2 * hb * ht * mb * at_ * s2t * f4t + #2 * ht * hb * mt * ab * s2b
      * f4b + ht * hb * at_ * ab * s2t * s2b * f5 + #4 * ht * hb * mt * mb * f6 in
    let s12 := pow2 ht * mu * mt * s2t * f2t + ndec 5 1 * (pow2 ht) * at_ * mu * (pow2 s2t) * f3t + pow2 hb * mu * mb
      * s2b * f2b + ndec 5 1 * (pow2 hb) * ab * mu * (pow2 s2b) * f3b + ht * hb * mb * mu * s2t * f4t + hb * ht * mt
      * mu * s2b * f4b + ndec 5 1 * ht * hb * s2t * s2b * mu * (at_ + ab) * f5 in
    let s22 := ndec 5 1 * (pow2 hb) * (pow2 mu) * (pow2 s2b) * f3b + ndec 5 1 * (pow2 ht) * (pow2 mu) * (pow2 s2t) *
      f3t + hb * ht * (pow2 mu) * s2b * s2t * f5 in
    let s11 := k * s11 in
    let s12 := k * s12 in
    let s22 := k * s22 in
    (s11, s12, s22).

  (** source/himalaya/mh2l/DSZHiggs.f:5360-5403 *)
  Definition f_taubotodd (t : T) (b : T) (t1 : T) (t2 : T) (b1 : T) (b2 : T) (st : T) (ct : T) (sb : T) (cb : T) (q : T) (mu : T) (tanb : T) (vv : T) : T :=
    let mt := nsqrt t in
    let mb := nsqrt b in
    let s2t := #2 * ct * st in
    let s2b := #2 * cb * sb in
    let c2t := pow2 ct - pow2 st in
    let c2b := pow2 cb - pow2 sb in
    let xt := (t1 - t2) * s2t / #2 / mt in
    let xb := (b1 - b2) * s2b / #2 / mb in
    let at_ := xt - mu * tanb in
    let ab := xb - mu * tanb in
    let sbe := nsin (natan tanb) in
    let cbe := ncos (natan tanb) in
    let ht := nsqrt (#2 / vv) * mt / cbe in
    let hb := nsqrt (#2 / vv) * mb / cbe in
    let k := #3 / (pow2 (#16 * (pow2 pi_f))) in
    let '(f1t, f2t, f3t, f4t, f1b, f2b, f3b, f4b, f5, f6, ft_, fb, gt, gb, fap) := f_makefuncstau t b t1 t2 b1 b2 s2t
      c2t s2b c2b q mu vv tanb in
    let dma := - ((pow2 ht * mu * at_ / (t1 - t2) * ft_ + pow2 hb * mu * ab / (b1 - b2) * fb + #2 * ht * hb * fap) /
      sbe / cbe) in
    let dma := k * dma in
    dma.

  (** source/himalaya/mh2l/DSZHiggs.f:5869-5902 *)
  Definition f_tauf1ab (t : T) (a0 : T) (bl : T) (t1 : T) (t2 : T) (s2t : T) (c2t : T) (cb : T) (sb : T) (q : T) (mu : T) : T :=
    let mu2 := pow2 mu in
    let mu2 :=
      if (mu2 =? #0) then
        let mu2 := ndec 1 10 in
        mu2
      else mu2 in
    let tauf1ab := (#2 * bl * mu2 / t * (mu2 - bl + t) / (f_delt bl mu2 t) + (bl + mu2 - t) / t) * (f_phi bl mu2 t) +
      #2 * a0 * (pow2 cb) * (a0 - #6 * t) / (a0 - #4 * t) / t * (f_phi a0 t t) - #2 * (pow2 cb) * (f_pli2 (#1 - a0 /
      t)) - #2 - (#2 + pow2 sb) / #3 * (pow2 pi_f) + nlog (t / q) * ((#4 * (bl - mu2 - #10 * t) * t + a0 * (mu2 - bl
      + (#6 + #4 * (pow2 sb)) * t)) / (a0 - #4 * t) / t + #1 / (f_delt bl mu2 t) * (pow3 (bl - mu2) / t + (#2 * (pow2
      mu2) + #2 * bl * mu2 + #5 * bl * t + mu2 * t - #4 * (pow2 bl) - #2 * (pow2 t)))) + nlog (a0 / q) * (#4 * a0 *
      (pow2 cb) / (a0 - #4 * t)) + nlog (bl / q) * (- (bl / t) + bl * (pow2 (- bl + mu2 + t)) / t / (f_delt bl mu2
      t)) + nlog (mu2 / q) * (mu2 / t + mu2 * (pow2 t - pow2 (bl - mu2)) / t / (f_delt bl mu2 t)) + #1 * (pow2 (nlog
      (t / q)) - pow2 (nlog (t1 / q)) / #2 - pow2 (nlog (t2 / q)) / #2) + nlog (bl / q) * (nlog (mu2 / q)) - nlog (bl
      / q) * (nlog (t / q)) - nlog (mu2 / q) * (nlog (t / q)) - #3 * (pow2 (nlog (t / q))) - #2 * (pow2 (nlog (t1 /
      q))) - #2 * (pow2 (nlog (t2 / q))) in
    tauf1ab.

  (** source/himalaya/mh2l/DSZHiggs.f:5908-5995 *)
  Definition f_tauf1c (t : T) (a0 : T) (bl : T) (t1 : T) (t2 : T) (s2t : T) (c2t : T) (cb : T) (sb : T) (q : T) (mu : T) : T :=
    let mu2 := pow2 mu in
    let mu2 :=
      if (mu2 =? #0) then
        let mu2 := ndec 1 10 in
        mu2
      else mu2 in
    let xt := s2t * (t1 - t2) / #2 / (nsqrt t) in
    let yt := s2t * (t1 - t2) / #2 / (nsqrt t) - mu / sb / cb in
    let ct2 := (#1 + c2t) / #2 in
    let st2 := (#1 - c2t) / #2 in
    let tauf1c := #2 * (pow2 mu2) * (mu2 + t - t1) / t1 / (f_delt t1 mu2 t) * (f_phi mu2 t t1) - pow2 a0 * (#1 + pow2
      c2t) * (pow2 cb) * (pow2 yt) / #2 / t2 / (f_delt a0 t1 t2) * (f_phi a0 t1 t2) - pow2 cb * a0 / t1 * ((#2 *
      (nsqrt t) + s2t * yt) / (nsqrt t) + pow2 (#2 * (nsqrt t) + s2t * yt) / #2 / (a0 - #4 * t1)) * (f_phi a0 t1 t1)
      - pow2 cb / t1 * (f_phi a0 bl t1) * (#2 * a0 * bl * (ct2 * t + s2t * yt * (nsqrt t) + st2 * (pow2 yt)) /
      (f_delt a0 t1 bl) + (a0 + bl - t1) * ((#1 + c2t) * (nsqrt t) + s2t * yt) / #2 / (nsqrt t)) + pow2 sb * (#1 +
      c2t + s2t * xt / (nsqrt t)) * (f_pli2 (#1 - bl / t1)) + (#1 - c2t) * (f_pli2 (#1 - mu2 / t1)) + pow2 s2t *
      (pow2 (t1 - t2)) / #4 / t1 / t2 * #1 + (#1 / #3 + s2t * (pow2 sb * (xt - yt) + yt) / #4 / (nsqrt t)) * (pow2
      pi_f) - #3 * s2t * (pow2 sb * xt + pow2 cb * yt) * (#2 * t - t1) / #2 / (nsqrt t) / t1 - (pow2 sb * (pow2 xt) +
      pow2 cb * (pow2 yt)) / #4 / t1 / t2 * ((#1 + pow2 c2t) * t1 + (#5 - #2 * c2t - pow2 c2t) * t2) + (#3 - c2t) *
      mu2 / t1 - (#3 - c2t) * (pow2 cb) * a0 / #2 / t1 - (#1 + c2t) * t / #2 / t1 - (#1 - c2t) * bl / #2 / t1 - (#1 +
      pow2 c2t) * (pow2 t1 + pow2 t2) / #4 / t1 / t2 + #5 / #2 + c2t / #2 - pow2 s2t / #2 + nlog (t / q) * (#1 + mu2
      / t - t / t1 - t1 / t + (- (pow3 (mu2 - t1) / t) + #4 * (pow2 mu2) + #5 * mu2 * t + #2 * (pow2 t) + pow2 mu2 *
      t / t1 - pow3 t / t1 - #2 * mu2 * t1 - #2 * (pow2 t1)) / (f_delt t1 mu2 t)) + nlog (mu2 / q) * (mu2 * ((- #2 +
      c2t) * t + t1) / t / t1 - mu2 * (pow3 (t1 - t) + #2 * mu2 * (t - t1) * t1 + pow2 mu2 * (t + t1)) / t / t1 /
      (f_delt mu2 t t1)) + nlog (bl / q) * ((#1 - c2t) / #2 * bl / t1 - pow2 cb * bl * (a0 - bl + t1) / t1 / (f_delt
      a0 t1 bl) * (ct2 * t + s2t * yt * (nsqrt t) + st2 * (pow2 yt)) + pow2 sb * bl * (ct2 * t + s2t * xt * (nsqrt t)
      + st2 * (pow2 xt)) / (bl - t1) / t1) + nlog (a0 / q) * ((#3 - c2t) * a0 * (pow2 cb) / #2 / t1 + a0 * (pow2 cb)
      * (pow2 (#2 * (nsqrt t) + s2t * yt)) / #2 / (a0 - #4 * t1) / t1 + a0 * (#1 + pow2 c2t) * (pow2 cb) * (a0 * (t1
      + t2) - pow2 (t1 - t2)) * (pow2 yt) / #4 / t1 / t2 / (f_delt a0 t1 t2) + a0 * (pow2 cb) * (a0 - bl - t1) / t1 /
      (f_delt a0 bl t1) * (ct2 * t + s2t * yt * (nsqrt t) + st2 * (pow2 yt))) + nlog (t2 / q) * ((#1 + pow2 c2t) * t2
      / #4 / t1 - #1 * (pow2 s2t) * t2 / #4 / t1 - pow2 cb * (#1 + pow2 c2t) * (pow2 yt) / #4 / t2 + pow2 sb * (#1 +
      pow2 c2t) * (pow2 xt) / #4 / t1 + pow2 cb * (#1 + pow2 c2t) * (pow2 yt) / #4 / t1 / t2 / (f_delt a0 t1 t2) *
      (pow2 a0 * t1 - a0 * (#2 * (pow2 t1) + #5 * t1 * t2 + pow2 t2) + pow2 (t1 - t2) * (t1 + t2))) + nlog (t1 / q) *
      (pow2 cb * (ct2 * t + s2t * yt * (nsqrt t) + st2 * (pow2 yt)) * (#1 / t1 - (a0 + bl - t1) / (f_delt a0 t1 bl))
      + pow2 cb * (#1 + pow2 c2t) * (pow2 yt) / #4 / t1 / t2 / (f_delt a0 t1 t2) * (pow2 a0 * t2 - a0 * (pow2 t1 + #5
      * t1 * t2 + #2 * (pow2 t2)) + pow2 (t1 - t2) * (t1 + t2)) + #1 / (f_delt t1 mu2 t) * (pow2 (mu2 - t1) * t1 / t
      - pow2 (mu2 - t) * (mu2 + t) / t1 + #6 * (pow2 mu2) + #4 * mu2 * t + #2 * (pow2 t) - #3 * mu2 * t1 - #2 * (pow2
      t1)) + pow2 cb * (a0 - #8 * t1) / #2 / t1 / (a0 - #4 * t1) * (pow2 (#2 * (nsqrt t) + s2t * yt)) + pow2 sb * (bl
      - #2 * t1) / t1 / (bl - t1) * (ct2 * t + s2t * xt * (nsqrt t) + st2 * (pow2 xt)) - (#1 - c2t) * (mu2 - #2 * t1)
      / #2 / t1 - pow2 s2t * #1 * (t1 - #2 * t2) / #4 / t2 + pow2 sb * c2t * (#1 - c2t) * (pow2 xt) / #2 / t1 + pow2
      sb * (#1 + pow2 c2t) * (pow2 xt) / #4 / t2 + pow2 sb * s2t * (t - #3 * t1) / (nsqrt t) / t1 * xt - #3 * (pow2
      cb) * s2t * (t + t1) / (nsqrt t) / t1 * yt - pow2 cb * (#5 - #2 * c2t - pow2 c2t) * (pow2 yt) / #4 / t1 - (#3 +
      c2t - #8 * (pow2 sb)) * t / #2 / t1 + (#3 - c2t) / #2 / t1 * mu2 + (#1 + pow2 c2t) * t1 / #4 / t2 - t1 / t + (-
      #14 + c2t - pow2 c2t) / #2) + (#1 + #1) * (pow2 s2t) / #4 * (#3 * (pow2 (nlog (t1 / q))) - #2 * (nlog (t1 / q))
      * (nlog (t2 / q)) - pow2 (nlog (t2 / q))) + s2t * (#6 * (pow2 sb) * xt + #5 * (pow2 cb) * yt) / #2 / (nsqrt t)
      * (pow2 (nlog (t1 / q))) + (#9 + pow2 sb - pow2 cb * c2t) / #2 * (pow2 (nlog (t1 / q))) + nlog (t1 / q) * (nlog
      (t2 / q)) - #2 * (nlog (t / q)) * (nlog (t1 / q)) + pow2 cb * (#1 + c2t + s2t * yt / (nsqrt t)) / #2 * (nlog
      (a0 / q) * (nlog (t1 / q)) + nlog (bl / q) * (nlog (t1 / q)) - nlog (a0 / q) * (nlog (bl / q))) in
    tauf1c.

  (** source/himalaya/mh2l/DSZHiggs.f:6001-6013 *)
  Definition f_tauf2ab (t : T) (a0 : T) (bl : T) (t1 : T) (t2 : T) (s2t : T) (c2t : T) (cb : T) (sb : T) (q : T) (mu : T) : T :=
    let tauf2ab := - ((#3 + #1) / #2 * (pow2 (nlog (t1 / q)) - pow2 (nlog (t2 / q)))) in
    tauf2ab.

  (** source/himalaya/mh2l/DSZHiggs.f:6019-6108 *)
  Definition f_tauf2c (t : T) (a0 : T) (bl : T) (t1 : T) (t2 : T) (s2t : T) (c2t : T) (cb : T) (sb : T) (q : T) (mu : T) : T :=
    let mu2 := pow2 mu in
    let mu2 :=
      if (mu2 =? #0) then
        let mu2 := ndec 1 10 in
        mu2
      else mu2 in
    let xt := s2t * (t1 - t2) / #2 / (nsqrt t) in
    let yt := xt - mu / cb / sb in
    let at_ := pow2 sb * xt + pow2 cb * yt in
    let ct2 := (#1 + c2t) / #2 in
    let st2 := (#1 - c2t) / #2 in
    let tauf2c := #4 * (pow2 mu2) * t / t1 / (f_delt mu2 t t1) * (f_phi mu2 t t1) + (a0 * (pow2 c2t) * (pow2 yt) /
      (t1 - t2) / t2 + (#1 + pow2 c2t) / #2 * (t1 / t2 - #1) * (pow2 yt) * a0 / (f_delt a0 t1 t2)) * (pow2 cb) *
      (f_phi a0 t1 t2) - (#2 * a0 * (pow2 c2t) * (nsqrt t) * yt / s2t / t1 / (t1 - t2) + s2t * (a0 * yt / #2 / (nsqrt
      t) / t1 + yt * a0 * (a0 - #4 * t1) / #2 / (nsqrt t) / t1 / (t1 - t2)) + a0 * (pow2 (#2 * (nsqrt t) + s2t * yt))
      / #2 / t1 / (a0 - #4 * t1) + a0 / t1 + a0 * (pow2 c2t) * (pow2 yt) / t1 / (t1 - t2)) * (pow2 cb) * (f_phi a0 t1
      t1) - (#2 * a0 * bl / t1 * (ct2 * t + s2t * (nsqrt t) * yt + st2 * (pow2 yt)) / (f_delt a0 bl t1) + pow2 c2t *
      (a0 + bl - t1) * yt * (nsqrt t) / s2t / t1 / (t1 - t2) + s2t * ((a0 + bl - t1) * yt / #4 / (nsqrt t) / t1 +
      f_delt a0 bl t1 * yt / #2 / (nsqrt t) / t1 / (t1 - t2)) + ct2 * (a0 + bl - t1) / #2 / t1 + c2t * (pow2 yt) *
      (a0 + bl - t1) / #2 / t1 / (t1 - t2) + c2t * (f_delt a0 bl t1) / #2 / t1 / (t1 - t2) - c2t * t * (a0 + bl - t1)
      / #2 / t1 / (t1 - t2)) * (pow2 cb) * (f_phi a0 bl t1) + (s2t * (bl - t1) * xt / (nsqrt t) / (t1 - t2) + s2t *
      xt / #2 / (nsqrt t) + ct2 - c2t * (t + t1 - bl) / (t1 - t2) + c2t * xt * (#2 * c2t * (nsqrt t) + s2t * xt) /
      s2t / (t1 - t2)) * (pow2 sb) * (f_pli2 (#1 - bl / t1)) + (#1 - c2t - #2 * c2t * (mu2 - t1) / (t1 - t2)) *
      (f_pli2 (#1 - mu2 / t1)) - #21 * s2t * t1 * at_ / #2 / (t1 - t2) / (nsqrt t) + c2t * t1 / #2 / (t1 - t2) + #3 *
      s2t * at_ / #4 / (nsqrt t) - #3 * s2t * (nsqrt t) * at_ / t1 + c2t * (#2 * bl + #2 * a0 * (pow2 cb) - #4 * mu2
      - #2 * t + t1 + #2 * (pow2 sb * (pow2 xt) + pow2 cb * (pow2 yt))) / #4 / t1 + (- #5 + pow2 c2t) / #4 / t1 *
      (pow2 sb * (pow2 xt) + pow2 cb * (pow2 yt)) - (#2 * bl + #6 * a0 * (pow2 cb) - #12 * mu2 + #2 * t + (#1 + pow2
      c2t - #1 * (pow2 s2t)) * t2) / #4 / t1 + ((#1 + pow2 c2t - #1 * (pow2 s2t)) * t1 + (#1 + pow2 c2t) * (pow2 sb *
      (pow2 xt) + pow2 cb * (pow2 yt))) / #4 / t2 - t / t1 * (nlog (t / q)) + (#2 * mu2 * (t - t1) * t1 + pow2 mu2 *
      (t + t1) - pow3 (t - t1)) / t1 / (f_delt t1 mu2 t) * (nlog (t * t1 / (pow2 q))) - nlog (mu2 / q) * (#2 - c2t) *
      mu2 / t1 + mu2 * (pow2 (t - t1) - pow2 mu2) / t1 / (f_delt t1 mu2 t) * (nlog (mu2 * t1 / (pow2 q))) + nlog (bl
      / q) * (st2 * bl / t1 + pow2 sb * bl / t1 / (bl - t1) * (ct2 * t + s2t * (nsqrt t) * xt + st2 * (pow2 xt))) -
      pow2 cb * bl * (a0 - bl + t1) * (ct2 * t + s2t * (nsqrt t) * yt + st2 * (pow2 yt)) / t1 / (f_delt a0 t1 bl) *
      (nlog (bl * t1 / (pow2 q))) + nlog (a0 / q) * ((#3 - c2t) * (pow2 cb) * a0 / #2 / t1 + a0 * (pow2 cb) * (pow2
      (#2 * (nsqrt t) + s2t * yt)) / #2 / (a0 - #4 * t1) / t1) - pow2 cb * a0 * (#1 + pow2 c2t) * (a0 - t1 - t2) *
      (t1 - t2) * (pow2 yt) / #4 / t1 / t2 / (f_delt a0 t1 t2) * (nlog (a0 * t1 / (pow2 q))) + pow2 cb * a0 * (a0 -
      bl - t1) * (ct2 * t + s2t * (nsqrt t) * yt + st2 * (pow2 yt)) / t1 / (f_delt a0 t1 bl) * (nlog (a0 * t1 / (pow2
      q))) + nlog (t2 / q) * (pow2 c2t * (#1 + #1) * (t1 + t2) / (t1 - t2) + pow2 c2t * (pow2 sb * (pow2 xt) + pow2
      cb * (pow2 yt)) / (t1 - t2) - (#1 + pow2 c2t) * (pow2 sb) * (t1 - t2) * (pow2 xt) / #4 / t1 / t2 + (#1 + pow2
      c2t - pow2 s2t * #1) * t2 / #4 / t1 + (#1 + pow2 c2t) * (pow2 sb * (pow2 xt) + pow2 cb * (pow2 yt)) / #4 / t2)
      - (#1 + pow2 c2t) * (pow2 cb) * (pow2 yt) * (pow2 a0 * t1 + pow3 (t1 - t2) - a0 * (#2 * (pow2 t1) + #3 * t1 *
      t2 - pow2 t2)) / #4 / t1 / t2 / (f_delt a0 t1 t2) * (nlog (t2 * t1 / (pow2 q))) + nlog (t1 / q) * (#4 * mu2 *
      (mu2 + t - t1) / (f_delt t1 mu2 t) + #2 * (#1 + pow2 c2t) * (pow2 cb) * (pow2 yt) * a0 * (a0 - t1 - #3 * t2) /
      #4 / t2 / (f_delt a0 t1 t2) - #2 * (pow2 cb) * (a0 + bl - t1) * (ct2 * t + s2t * (nsqrt t) * yt + st2 * (pow2
      yt)) / (f_delt a0 t1 bl) + pow2 cb * (pow2 (#2 * (nsqrt t) + s2t * yt)) / #2 / t1 - #2 * (pow2 cb) * (pow2 (#2
      * (nsqrt t) + s2t * yt)) / (a0 - #4 * t1) + pow2 sb * (ct2 * t + s2t * (nsqrt t) * xt + st2 * (pow2 xt)) / t1 -
      pow2 sb * (ct2 * t + s2t * (nsqrt t) * xt + st2 * (pow2 xt)) / (bl - t1) - st2 * mu2 / t1 + #1 - c2t - #6 *
      (pow2 c2t) * (nsqrt t) * at_ / s2t / (t1 - t2) + #9 * s2t * t1 * at_ / (nsqrt t) / (t1 - t2) - c2t * (#1 + c2t)
      * (pow2 sb * (pow2 xt) + pow2 cb * (pow2 yt)) / (t1 - t2) - (#1 + pow2 c2t) * (pow2 sb) * (t1 - t2) * (pow2 xt)
      / #4 / t1 / t2 - c2t * (bl + a0 * (pow2 cb) - #2 * mu2 - t + (#1 + #3 * c2t * (#1 + #1)) * t1 - c2t * (#1 + #1)
      * t2) / (t1 - t2) - #3 * s2t * at_ / #2 / (nsqrt t) + s2t * (nsqrt t) * (pow2 sb * xt - #3 * (pow2 cb) * yt) /
      t1 - (#3 - #2 * c2t + pow2 c2t) / #4 / t1 * (pow2 sb * (pow2 xt) + pow2 cb * (pow2 yt)) + pow2 s2t / #2 / t1 *
      (pow2 sb * (pow2 xt) - pow2 cb * (pow2 yt)) - #6 + c2t + (#1 + #1) * (pow2 s2t) / #2 + ((#3 - c2t) * mu2 - (c2t
      + #8 * (pow2 cb) - #5) * t) / #2 / t1 - (#2 * (pow2 c2t) + (#1 - #1) * (pow2 s2t)) * t1 / #4 / t2) + pow2 (nlog
      (t2 / q)) * (#3 * (pow2 c2t) * (nsqrt t) * at_ / #2 / s2t / (t1 - t2) + c2t * (#1 - #2 * c2t) * (pow2 sb *
      (pow2 xt) + pow2 cb * (pow2 yt)) / #4 / (t1 - t2) + #3 / #8 + c2t * (#2 * bl + #2 * a0 * (pow2 cb) - #4 * mu2 -
      #2 * t + (#1 - #2 * c2t * (#1 + #1)) * t1 + (#1 - #6 * c2t * (#1 + #1)) * t2) / #8 / (t1 - t2)) + pow2 (nlog
      (t1 / q)) * (#3 * s2t / #2 / (nsqrt t) * at_ + s2t * (pow2 cb) * a0 * yt / (t1 - t2) / (nsqrt t) + s2t * (bl -
      #6 * t1) * at_ / #2 / (t1 - t2) / (nsqrt t) + #9 * (pow2 c2t) * (nsqrt t) / #2 / s2t * at_ / (t1 - t2) + #3 *
      c2t * (#1 + #2 * c2t) * (pow2 sb * (pow2 xt) + pow2 cb * (pow2 yt)) / #4 / (t1 - t2) + c2t * (#6 * bl + #6 * a0
      * (pow2 cb) - #12 * mu2 - #6 * t + (#7 + #26 * c2t * (#1 + #1)) * t1 - (#1 + #2 * c2t * (#1 + #1)) * t2) / #8 /
      (t1 - t2) + #25 / #8 - c2t / #2 + pow2 s2t * (#1 + #1)) - (s2t * (#2 * a0 + #2 * bl - t1 - t2) * yt / #4 /
      (nsqrt t) / (t1 - t2) + (#1 + c2t) / #4 + pow2 c2t * (nsqrt t) * yt / s2t / (t1 - t2) + c2t * (a0 + bl - t - t1
      + pow2 yt) / #2 / (t1 - t2)) * (pow2 cb) * (nlog (a0 / t1)) * (nlog (bl / t1)) - pow2 cb * s2t * #2 * a0 * yt /
      (t1 - t2) / (nsqrt t) * (nlog (a0 / q)) * (nlog (t1 / q)) - s2t * bl * at_ / (t1 - t2) / (nsqrt t) * (nlog (bl
      / q)) * (nlog (t1 / q)) - (pow2 c2t * (#1 + #1) * (t1 + t2) / (t1 - t2) + pow2 c2t * (pow2 sb * (pow2 xt) +
      pow2 cb * (pow2 yt)) / (t1 - t2)) * (nlog (t1 / q)) * (nlog (t2 / q)) in
    tauf2c.

  (** source/himalaya/mh2l/DSZHiggs.f:6114-6127 *)
  Definition f_tauf3ab (t : T) (a0 : T) (bl : T) (t1 : T) (t2 : T) (s2t : T) (c2t : T) (cb : T) (sb : T) (q : T) (mu : T) : T :=
    let tauf3ab := (#2 + #1) / #2 * (#2 - nlog (t1 / q) - nlog (t2 / q)) * (#2 - (t1 + t2) / (t1 - t2) * (nlog (t1 /
      t2))) in
    tauf3ab.

  (** source/himalaya/mh2l/DSZHiggs.f:6133-6264 *)
  Definition f_tauf3c (t : T) (a0 : T) (bl : T) (t1 : T) (t2 : T) (s2t : T) (c2t : T) (cb : T) (sb : T) (q : T) (mu : T) : T :=
    let mu2 := pow2 mu in
    let mu2 :=
      if (mu2 =? #0) then
        let mu2 := ndec 1 10 in
        mu2
      else mu2 in
    let xt := s2t * (t1 - t2) / #2 / (nsqrt t) in
    let yt := xt - mu / cb / sb in
    let at_ := pow2 sb * xt + pow2 cb * yt in
    let ct2 := (#1 + c2t) / #2 in
    let st2 := (#1 - c2t) / #2 in
    let tauf3c := (#2 * mu2 * t * (mu2 + t - t1) / t1 / (f_delt t1 mu2 t) - (#4 * mu2 * t + #2 * (f_delt t1 mu2 t)) /
      t1 / (t1 - t2) - (mu2 + t - t1) / t1) * (f_phi mu2 t t1) + (a0 * (#1 + pow2 c2t) * (a0 - #2 * (t1 + t2)) *
      (pow2 yt) / #2 / t2 / (f_delt a0 t1 t2) + #4 * a0 * (pow2 c2t) * (a0 - #2 * (t1 + t2)) * (pow2 yt) / t2 / (pow2
      (t1 - t2)) - (#1 - #3 * (pow2 c2t)) * (pow2 yt) / #2 / t2) * (pow2 cb) * (f_phi a0 t1 t2) + (- (a0 * (pow2 (#2
      * (nsqrt t) + s2t * yt)) / #2 / t1 / (a0 - #4 * t1)) + a0 * (pow2 (#2 * (nsqrt t) + s2t * yt)) / #2 / t1 / (t1
      - t2) - #2 * a0 * (pow2 c2t) * (pow2 yt) * (#2 * a0 - #7 * t1 - t2) / t1 / (pow2 (t1 - t2)) + #2 * a0 * (#1 -
      #3 * (pow2 c2t)) * (nsqrt t) * (a0 - #4 * t1) * yt / s2t / t1 / (pow2 (t1 - t2)) - #4 * a0 * (pow2 c2t) *
      (nsqrt t) * yt / s2t / t1 / (t1 - t2)) * (pow2 cb) * (f_phi a0 t1 t1) + (- (#2 * a0 * bl * (ct2 * t + s2t *
      (nsqrt t) * yt + st2 * (pow2 yt)) / t1 / (f_delt a0 t1 bl)) + #2 * (#1 - #3 * (pow2 c2t)) * (nsqrt t) * yt *
      (f_delt a0 t1 bl) / s2t / t1 / (pow2 (t1 - t2)) - #2 * (pow2 c2t) * (nsqrt t) * yt * (a0 + bl - t1) / s2t / t1
      / (t1 - t2) + #3 * c2t * (f_delt a0 t1 bl) * (t - pow2 yt) / t1 / (pow2 (t1 - t2)) + (a0 + bl - t1) * (c2t * (t
      - pow2 yt) + (ct2 * t + s2t * (nsqrt t) * yt + st2 * (pow2 yt))) / t1 / (t1 - t2)) * (pow2 cb) * (f_phi a0 bl
      t1) - (#1 - #3 * (pow2 c2t)) * (pow2 sb) * (pow2 xt) / (t1 - t2) * (f_pli2 (#1 - t2 / t1)) + (#1 - c2t + #2 *
      (#1 - #3 * c2t) * (mu2 - t1) / (t1 - t2) - #6 * c2t * (pow2 (mu2 - t1)) / (pow2 (t1 - t2))) * (f_pli2 (#1 - mu2
      / t1)) + (- (#4 * (#1 - #3 * (pow2 c2t)) * (pow2 sb) * (nsqrt t) * (bl - t1) * xt / s2t / (pow2 (t1 - t2))) +
      #4 * (pow2 c2t) * (pow2 sb) * (nsqrt t) * xt / s2t / (t1 - t2) - #2 * (pow2 sb) * (ct2 * t + s2t * (nsqrt t) *
      xt + st2 * (pow2 xt)) / (t1 - t2) - #2 * (pow2 sb) * c2t * (#3 * bl - #2 * t1 - t2) * (t - pow2 xt) / (pow2 (t1
      - t2))) * (f_pli2 (#1 - bl / t1)) + #2 * (nsqrt t) * at_ * (#3 * (#7 - #18 * (pow2 c2t)) * t1 - #9 * (pow2 c2t)
      * t2) / s2t / (pow2 (t1 - t2)) - #3 * s2t * (nsqrt t) * at_ * (#4 * t1 - t2) / t1 / (t1 - t2) + #2 * c2t *
      (pow2 at_) / (t1 - t2) - #21 * c2t * t1 * (pow2 sb * (pow2 xt) + pow2 cb * (pow2 yt)) / (pow2 (t1 - t2)) + #5 *
      c2t / #2 / (t1 - t2) * (pow2 sb * (pow2 xt) + pow2 cb * (pow2 yt)) - (#6 - #2 * c2t) / #4 / t1 * (pow2 sb *
      (pow2 xt) + pow2 cb * (pow2 yt)) + #3 * mu2 / t1 + c2t * mu2 * (t1 + t2) / t1 / (t1 - t2) + #18 * c2t * mu2 *
      t1 / (pow2 (t1 - t2)) + #3 * (pow2 cb) * a0 * c2t / (t1 - t2) - pow2 cb * a0 * (#3 - c2t) / #2 / t1 - #12 *
      (pow2 cb * a0 + bl) * t1 * c2t / (pow2 (t1 - t2)) + #3 * c2t * bl / (t1 - t2) - (#1 - c2t) * bl / #2 / t1 + #15
      * c2t * t1 * t / (pow2 (t1 - t2)) - #3 * c2t * t / #2 / (t1 - t2) - (#1 + c2t) * t / #2 / t1 - pow2 s2t / #2 *
      (#1 + #1) - pow2 c2t * (#1 + #1) * (pow2 (t1 - t2)) / #4 / t1 / t2 - #9 * (#1 + #1) * t1 * (pow2 c2t) / (t1 -
      t2) - #3 * t1 * (#2 * t1 + #3 * t2) / (pow2 (t1 - t2)) * c2t - (#1 - #1) * (pow2 (t1 - t2)) / #4 / t1 / t2 -
      (#28 + #6 * #1) * t1 / #2 / (t1 - t2) + nlog (t / q) * (- (t / t1)) - nlog (t * t1 / (pow2 q)) * t * (pow2 (t -
      t1) - pow2 mu2) / t1 / (f_delt t1 mu2 t) + nlog (mu2 / q) * (- (#6 * mu2 * (#3 * mu2 - t2) * c2t / (pow2 (t1 -
      t2))) - (#2 - c2t) * mu2 / t1) - nlog (mu2 * t1 / (pow2 q)) * mu2 * (pow2 t1 + pow2 mu2 - pow2 t - #2 * mu2 *
      t1) / t1 / (f_delt t1 mu2 t) + nlog (bl / q) * (#12 * bl * c2t * t1 / (pow2 (t1 - t2)) + pow2 sb * bl * (ct2 *
      t + s2t * (nsqrt t) * xt + st2 * (pow2 xt)) / t1 / (bl - t1) + (#1 - c2t) * bl / #2 / t1 - #3 * c2t * bl / (t1
      - t2)) - nlog (bl * t1 / (pow2 q)) * (pow2 cb) * bl * (a0 - bl + t1) / t1 / (f_delt a0 t1 bl) * (ct2 * t + s2t
      * (nsqrt t) * yt + st2 * (pow2 yt)) + nlog (a0 / q) * a0 * (pow2 cb) * (pow2 (#2 * (nsqrt t) + s2t * yt) / #2 /
      (a0 - #4 * t1) / t1 + #12 * c2t * t1 / (pow2 (t1 - t2)) + (#3 - c2t) / #2 / t1 - #3 * c2t / (t1 - t2)) - nlog
      (a0 * t1 / (pow2 q)) * a0 * (pow2 cb) * (pow2 yt * (#1 + pow2 c2t) / #4 / t1 / t2 / (f_delt a0 t1 t2) * (pow2
      (t1 + t2) - a0 * (t1 + t2) + #4 * t1 * t2) - (a0 - bl - t1) / t1 / (f_delt a0 t1 bl) * (ct2 * t + s2t * (nsqrt
      t) * yt + st2 * (pow2 yt))) + nlog (t2 / q) * (#12 * (pow2 c2t) * t2 * (nsqrt t) * at_ / s2t / (pow2 (t1 - t2))
      - #6 * s2t * (nsqrt t) * t2 * at_ / (pow2 (t1 - t2)) - #3 * (#1 - c2t) * (pow2 cb) * a0 * t2 / (pow2 (t1 - t2))
      - (#1 - #3 * c2t) * t2 * bl / (pow2 (t1 - t2)) + #6 * (#1 - c2t) * t2 * mu2 / (pow2 (t1 - t2)) - (#1 + #3 *
      c2t) * t2 * t / (pow2 (t1 - t2)) + (pow2 sb * (pow2 xt) + pow2 cb * (pow2 yt)) * (- ((#2 - #3 * c2t + #23 *
      (pow2 c2t)) * t2 / (pow2 (t1 - t2))) - (#1 + #5 * (pow2 c2t)) / #2 / (t1 - t2) - (#1 + pow2 c2t) / #4 / t2) +
      (#1 + pow2 c2t) * (pow2 sb) * (pow2 xt) * (pow2 t1 - #4 * t1 * t2 - pow2 t2) / #4 / t1 / t2 / (t1 - t2) - (#1 +
      #1) * (pow2 c2t) / #4 / (pow2 (t1 - t2)) * (#9 * (pow2 t1) + #32 * t1 * t2 + #19 * (pow2 t2)) - (#1 + #1) * (t1
      - t2) / #4 / t1 * (pow2 c2t) + t2 * (#2 * t1 + t2) / (pow2 (t1 - t2)) * c2t - t2 * ((#7 + #3 * #1) * t1 + (#1 -
      #1) * t2) / #2 / (pow2 (t1 - t2)) - ((#1 - #1) * t1 - (#3 - #1) * t2) / #2 / (t1 - t2) + (#1 - #1) * t2 / #4 /
      t1) + nlog (t2 * t1 / (pow2 q)) * (#1 + pow2 c2t) * (pow2 cb) * (pow2 yt) / #4 / t1 / t2 / (f_delt a0 t1 t2) *
      (pow2 a0 * t1 + pow3 (t1 - t2) - #2 * t2 * (pow2 t1 - pow2 t2) - a0 * (#2 * (pow2 t1) + t1 * t2 + pow2 t2)) +
      nlog (t1 / q) * (#2 * (pow2 (mu2 + t - t1)) / (f_delt t1 mu2 t) - pow2 cb * (#1 + pow2 c2t) * (pow2 yt) / #2 /
      t2 / (f_delt a0 t1 t2) * (pow2 a0 - #4 * t2 * (t1 - t2) - a0 * (t1 + #3 * t2)) - #2 * (pow2 cb) * (a0 + bl -
      t1) * (ct2 * t + s2t * (nsqrt t) * yt + st2 * (pow2 yt)) / (f_delt a0 t1 bl) + pow2 cb * (pow2 (#2 * (nsqrt t)
      + s2t * yt)) / #2 / t1 - #2 * (pow2 cb) * (pow2 (#2 * (nsqrt t) + s2t * yt)) / (a0 - #4 * t1) + pow2 sb * (ct2
      * t + s2t * (nsqrt t) * xt + st2 * (pow2 xt)) / t1 - pow2 sb * (ct2 * t + s2t * (nsqrt t) * xt + st2 * (pow2
      xt)) / (bl - t1) - (#1 - c2t) / #2 * mu2 / t1 + #1 - c2t + #12 * (nsqrt t) * at_ * ((- #3 + #7 * (pow2 c2t)) *
      t1 + pow2 c2t * t2) / s2t / (pow2 (t1 - t2)) + #6 * (nsqrt t) * (#2 * t1 - t2) * s2t * at_ / (pow2 (t1 - t2)) +
      pow2 sb * (pow2 s2t) * (pow2 xt) / t1 + s2t * (nsqrt t) / t1 * (pow2 sb * xt - #3 * (pow2 cb) * yt) + (#1 +
      pow2 c2t) * (pow2 sb) * (pow2 xt) * (pow2 t1 + #4 * t1 * t2 - pow2 t2) / #4 / t1 / t2 / (t1 - t2) + (pow2 sb *
      (pow2 xt) + pow2 cb * (pow2 yt)) * ((#2 + #15 * c2t + #23 * (pow2 c2t)) * t1 / (pow2 (t1 - t2)) + (#5 - #6 *
      c2t - #5 * (pow2 c2t)) / #2 / (t1 - t2) - (#5 - #2 * c2t - pow2 c2t) / #4 / t1) + #3 * a0 * (pow2 cb) * (#2 *
      (#1 + c2t) * t1 - (#1 - c2t) * t2) / (pow2 (t1 - t2)) + bl * (#2 * (#1 + #3 * c2t) * t1 - (#1 - #3 * c2t) * t2)
      / (pow2 (t1 - t2)) + t * (#2 * (#1 - #6 * c2t) * t1 - (#1 + #3 * c2t) * t2) / (pow2 (t1 - t2)) + (#5 - c2t - #8
      * (pow2 cb)) * t / #2 / t1 + (#3 - c2t) * mu2 / #2 / t1 - #2 * (#3 + #12 * c2t) * mu2 * t1 / (pow2 (t1 - t2)) -
      #6 * (#1 - c2t) * mu2 / (t1 - t2) - #9 / #2 + pow2 s2t / #2 * (#1 + #1) + #3 * c2t / #2 + c2t * t1 * (#4 * t1 +
      #11 * t2) / (pow2 (t1 - t2)) + (#1 + #1) * (#65 * (pow2 t1) + #4 * t1 * t2 - #9 * (pow2 t2)) * (pow2 c2t) / #4
      / (pow2 (t1 - t2)) + (#1 + #1) * (t1 - t2) * (pow2 c2t) / #4 / t2 + (#1 - #1) * t1 / #4 / t2 + t1 * ((#7 + #3 *
      #1) * t1 + (#1 - #1) * t2) / #2 / (pow2 (t1 - t2)) + (#5 * (#5 + #1) * t1 + (#1 - #1) * t2) / #2 / (t1 - t2)) +
      (#2 * (pow2 (nlog (mu2 / q))) - pow2 (nlog (mu2 / t1))) * #3 * c2t * (pow2 mu2) / (pow2 (t1 - t2)) + (#2 *
      (pow2 (nlog (bl / q))) - pow2 (nlog (bl / t1))) * (#2 * bl * (#1 - #3 * (pow2 c2t)) * (nsqrt t) * at_ / s2t /
      (pow2 (t1 - t2)) - bl / #2 / (t1 - t2) - #3 * bl * c2t * (t1 + t2 - #2 * t + #2 * (pow2 sb) * (pow2 xt) + #2 *
      (pow2 cb) * (pow2 yt)) / #2 / (pow2 (t1 - t2))) + (#2 * (pow2 (nlog (a0 / q))) - pow2 (nlog (a0 / t1))) * (pow2
      cb) * (#4 * a0 * (#1 - #3 * (pow2 c2t)) * (nsqrt t) * yt / s2t / (pow2 (t1 - t2)) - #3 * a0 / #2 / (t1 - t2) -
      #3 * a0 * c2t * (t1 + t2 - #2 * t + #2 * (pow2 yt)) / #2 / (pow2 (t1 - t2))) + nlog (t / t1) * (nlog (mu2 /
      t1)) * (t1 + t2 - #2 * t - #2 * mu2) / (t1 - t2) + nlog (t2 / t1) * (nlog (a0 / t1)) * (pow2 yt) * (pow2 cb) *
      (#8 * a0 * (pow2 c2t) + (#1 - #3 * (pow2 c2t)) * (t1 - t2)) / #2 / (pow2 (t1 - t2)) + nlog (bl / t1) * (nlog
      (a0 / t1)) * (pow2 cb) * (#2 * (nsqrt t) * yt / (pow2 (t1 - t2)) / s2t * ((a0 + bl) * (#1 - #3 * (pow2 c2t)) -
      (#1 - #2 * (pow2 c2t)) * t1 + pow2 c2t * t2) + s2t * (nsqrt t) * yt / (t1 - t2) + (t + pow2 yt) / #2 / (t1 -
      t2) + #3 * c2t * (#2 * a0 + #2 * bl - t1 - t2) * (t - pow2 yt) / #2 / (pow2 (t1 - t2))) + nlog (t1 / q) * (nlog
      (t2 / q)) * (#2 * (pow2 c2t) * (#1 + #1) * (pow2 (t1 + t2)) / (pow2 (t1 - t2)) + ((#1 + #5 * (pow2 c2t)) * t1 -
      (#1 - #11 * (pow2 c2t)) * t2) / #2 / (pow2 (t1 - t2)) * (pow2 sb * (pow2 xt) + pow2 cb * (pow2 yt))) + pow2
      (nlog (t1 / q)) * (#9 * (pow2 c2t) * (nsqrt t) * at_ / s2t / (t1 - t2) + #6 * (nsqrt t) * t1 * (#2 - #5 * (pow2
      c2t)) * at_ / s2t / (pow2 (t1 - t2)) - #3 * (nsqrt t) * s2t * (#2 * t1 - t2) * at_ / (pow2 (t1 - t2)) - ((#5 +
      #5 * c2t + #13 * (pow2 c2t)) * t1 - (#3 - #4 * c2t - #10 * (pow2 c2t)) * t2) / #2 / (pow2 (t1 - t2)) * (pow2 sb
      * (pow2 xt) + pow2 cb * (pow2 yt)) + mu2 * ((#6 + #5 * c2t) * t1 - (#3 - #4 * c2t) * t2) / (pow2 (t1 - t2)) +
      #9 / #4 - c2t + #5 / #4 * (pow2 s2t) * (#1 + #1) + c2t * (t - bl - a0 * (pow2 cb)) * (#5 * t1 + #4 * t2) / #2 /
      (pow2 (t1 - t2)) - (t + bl + #3 * a0 * (pow2 cb)) * (#2 * t1 - t2) / #2 / (pow2 (t1 - t2)) + c2t / #4 - #9 * t1
      * t2 * c2t / #2 / (pow2 (t1 - t2)) - pow2 c2t * (#1 + #1) * (#8 * (pow2 t1) + #16 * t1 * t2 - pow2 t2) / #2 /
      (pow2 (t1 - t2)) - t1 * ((#14 + #5 * #1) * t1 - (#10 + #4 * #1) * t2) / #2 / (pow2 (t1 - t2))) + pow2 (nlog (t2
      / q)) * (- (#3 * (pow2 c2t) * (nsqrt t) * (t1 + t2) * at_ / s2t / (pow2 (t1 - t2))) + #3 * s2t * (nsqrt t) * t2
      * at_ / (pow2 (t1 - t2)) + (#2 * t2 - c2t * (t1 + #2 * t2) + pow2 c2t * (#2 * t1 + #5 * t2)) / #2 / (pow2 (t1 -
      t2)) * (pow2 sb * (pow2 xt) + pow2 cb * (pow2 yt)) + t2 * (#3 * (pow2 cb) * a0 + bl - #6 * mu2 + t) / #2 /
      (pow2 (t1 - t2)) - c2t * (pow2 cb * a0 + bl - mu2 - t) * (t1 + #2 * t2) / #2 / (pow2 (t1 - t2)) + c2t * mu2 *
      (t1 + #2 * t2) / #2 / (pow2 (t1 - t2)) - #3 / #4 + pow2 s2t / #4 * (#1 + #1) + pow2 c2t * (pow2 (t1 + t2) + #3
      * (pow2 t2)) / #2 / (pow2 (t1 - t2)) * (#1 + #1) - c2t * (pow2 (t1 + t2) + #2 * t1 * t2) / #4 / (pow2 (t1 -
      t2)) + t2 * (#2 * (#1 + #1) * t1 + (#2 - #1) * t2) / #2 / (pow2 (t1 - t2))) in
    tauf3c.

  (** source/himalaya/mh2l/DSZHiggs.f:5844-5863 *)
  Definition f_taufuncs (t : T) (a0 : T) (bl : T) (t1 : T) (t2 : T) (s2t : T) (c2t : T) (cb : T) (sb : T) (q : T) (mu : T) : T * T * T :=
    let f1 := f_tauf1ab t a0 bl t1 t2 s2t c2t cb sb q mu + f_tauf1c t a0 bl t1 t2 s2t c2t cb sb q mu + f_tauf1c t a0
      bl t2 t1 (- s2t) (- c2t) cb sb q mu in
    let f2 := f_tauf2ab t a0 bl t1 t2 s2t c2t cb sb q mu + f_tauf2c t a0 bl t1 t2 s2t c2t cb sb q mu - f_tauf2c t a0
      bl t2 t1 (- s2t) (- c2t) cb sb q mu in
    let f3 := f_tauf3ab t a0 bl t1 t2 s2t c2t cb sb q mu + f_tauf3c t a0 bl t1 t2 s2t c2t cb sb q mu + f_tauf3c t a0
      bl t2 t1 (- s2t) (- c2t) cb sb q mu in
    (f1, f2, f3).

  (** source/himalaya/mh2l/DSZHiggs.f:6270-6306 *)
  Definition f_tauresfuncs (t : T) (a0 : T) (bl : T) (t1 : T) (t2 : T) (s2t : T) (c2t : T) (cb : T) (sb : T) (q : T) (mu : T) : T :=
    let mu2 := pow2 mu in
    let xt := s2t * (t1 - t2) / #2 / (nsqrt t) in
    let yt := xt - mu / cb / sb in
    let at_ := pow2 sb * xt + pow2 cb * yt in
    let ct2 := (#1 + c2t) / #2 in
    let st2 := (#1 - c2t) / #2 in
    let f2_s := #2 * (pow2 c2t) * (pow2 sb) * (nsqrt t) * xt / (t1 - t2) * (f_pli2 (#1 - bl / t1)) - #2 * (pow2 c2t)
      * (pow2 sb) * (nsqrt t) * xt / (t1 - t2) * (f_pli2 (#1 - bl / t2)) - pow2 c2t * (pow2 cb) * (nsqrt t) * yt /
      (t1 - t2) * (nlog (a0 / t1)) * (nlog (bl / t1)) + pow2 c2t * (pow2 cb) * (nsqrt t) * yt / (t1 - t2) * (nlog (a0
      / t2)) * (nlog (bl / t2)) - #6 * at_ * (pow2 c2t) * (nsqrt t) / (t1 - t2) * (nlog (t1 / t2)) + #3 * (pow2 c2t)
      * at_ * (nsqrt t) / (t1 - t2) * (pow2 (nlog (t1 / q))) - #3 * (pow2 c2t) * at_ * (nsqrt t) / (t1 - t2) * (pow2
      (nlog (t2 / q))) - pow2 c2t * (pow2 cb) * yt * (nsqrt t) * (a0 + bl - t1) / t1 / (t1 - t2) * (f_phi a0 bl t1) +
      pow2 c2t * (pow2 cb) * yt * (nsqrt t) * (a0 + bl - t2) / t2 / (t1 - t2) * (f_phi a0 bl t2) - #2 * a0 * (pow2
      c2t) * (pow2 cb) * yt * (nsqrt t) / t1 / (t1 - t2) * (f_phi a0 t1 t1) + #2 * a0 * (pow2 c2t) * (pow2 cb) * yt *
      (nsqrt t) / t2 / (t1 - t2) * (f_phi a0 t2 t2) in
    f2_s.

  (** source/himalaya/mh2l/DSZHiggs.f:6312-6342 *)
  Definition f_tausfuncs (t : T) (a0 : T) (bl : T) (t1 : T) (t2 : T) (s2t : T) (c2t : T) (cb : T) (sb : T) (q : T) (mu : T) (at_ : T) (ht : T) : T * T * T * T * T * T :=
    let dmuf2 := - (#1 / #4 * (pow2 (nlog (t1 / q)) - pow2 (nlog (t2 / q)))) in
    let dmuf3 := - (#1 / #4 * (nlog (t1 / q) + nlog (t2 / q) - #2) * (#2 - (t1 + t2) / (t1 - t2) * (nlog (t1 / t2))))
      in
    let datf2 := - ((#3 + #1) / #2 * (pow2 (nlog (t1 / q)) - pow2 (nlog (t2 / q)))) in
    let datf3 := - ((#3 + #1) / #2 * (nlog (t1 / q) + nlog (t2 / q) - #2) * (#2 - (t1 + t2) / (t1 - t2) * (nlog (t1 /
      t2)))) in
    let dm12 := pow2 ht * #1 * s2t * mu * (nsqrt t) / #4 * (pow2 (nlog (t1 / q)) - pow2 (nlog (t2 / q))) + pow2 ht *
      #1 * (pow2 s2t) * mu * at_ / #8 * (nlog (t1 / q) + nlog (t2 / q) - #2) * (#2 - (t1 + t2) / (t1 - t2) * (nlog
      (t1 / t2))) in
    let dm22 := pow2 ht * #1 * t * (pow2 (nlog (t1 / q)) + pow2 (nlog (t2 / q)) - #2 * (pow2 (nlog (t / q)))) + pow2
      ht * #1 * s2t * at_ * (nsqrt t) * (pow2 (nlog (t1 / q)) - pow2 (nlog (t2 / q))) + pow2 ht * #1 * (pow2 s2t) *
      (pow2 at_) / #4 * (nlog (t1 / q) + nlog (t2 / q) - #2) * (#2 - (t1 + t2) / (t1 - t2) * (nlog (t1 / t2))) in
    (dmuf2, dmuf3, datf2, datf3, dm12, dm22).

  (** source/himalaya/mh2l/DSZHiggs.f:6349-6485 *)
  Definition f_taudfuncs (t : T) (a0 : T) (bl : T) (t1 : T) (t2 : T) (s2t : T) (c2t : T) (cb : T) (sb : T) (q : T) (mu : T) (a : T) (v2 : T) : T * T * T * T * T * T * T :=
    let mu2 := pow2 mu in
    let xt := a + mu * cb / sb in
    let yt := a - mu * sb / cb in
    let ct2 := (#1 + c2t) / #2 in
    let st2 := (#1 - c2t) / #2 in
    let v22 := v2 * (pow2 sb) in
    let mt := nsqrt t in
    let f1o := nlog (t1 / q) + nlog (t2 / q) - #2 * (nlog (t / q)) in
    let f2o := nlog (t1 / q) - nlog (t2 / q) in
    let f3o := #2 - (t1 + t2) / (t1 - t2) * (nlog (t1 / q) - nlog (t2 / q)) in
    let dv2 := v22 * #1 / #2 * (#2 * (nlog (t / q)) - #1 - bl / t + t1 / t * ct2 * (#2 * bl / (bl - t1) * (nlog (bl /
      t1)) - #1) + t2 / t * st2 * (#2 * bl / (bl - t2) * (nlog (bl / t2)) - #1)) in
    let dcotb := #0 in
    let dv22 := v22 / v2 * dv2 in
    let dmt := nsqrt t / #2 * ((#1 - #5 / #2 * (pow2 sb)) * (nlog (t / q)) + #3 * (pow2 cb) / #2 * a0 / t * (#1 -
      nlog (a0 / q)) - #3 / #2 * mu2 / t * (#1 - nlog (mu2 / q)) + #5 * (pow2 sb) - #1 + pow2 cb / #2 * (#1 - a0 / t)
      * (f_myb0 t #0 a0 q) + pow2 cb * (#2 - a0 / t) * (f_myb0 t t a0 q) + (t1 / t * (#1 - nlog (t1 / q)) + (t - t1 +
      mu2) / t * (f_myb0 t mu2 t1 q) + t2 / t * (#1 - nlog (t2 / q)) + (t - t2 + mu2) / t * (f_myb0 t mu2 t2 q) + bl
      / t * (#1 - nlog (bl / q)) + (t - bl + mu2) / t * (f_myb0 t mu2 bl q)) / #2) in
    let dmu := #0 in
    let dm1 := (t1 - t - mu2) * (f_myb0 t1 t mu2 q) - f_myaa t q + st2 * (t1 - mu2) * (f_myb0 t1 #0 mu2 q) - (#1 +
      st2) * (f_myaa mu2 q) + pow2 cb * (#1 + st2) * (f_myaa a0 q) + st2 * (f_myaa bl q) + (pow2 c2t - (#1 - #1) / #2
      * (pow2 s2t)) * (f_myaa t2 q) + (#1 + #1) / #2 * (pow2 s2t) * (f_myaa t1 q) + #1 / #2 * (pow2 sb * (pow2 (#2 *
      (nsqrt t) + s2t * xt)) * (f_myb0 t1 t1 #0 q) + pow2 cb * (pow2 (#2 * (nsqrt t) + s2t * yt)) * (f_myb0 t1 t1 a0
      q) + pow2 sb * (#1 + pow2 c2t) * (pow2 xt) * (f_myb0 t1 t2 #0 q) + pow2 cb * (#1 + pow2 c2t) * (pow2 yt) *
      (f_myb0 t1 t2 a0 q)) + pow2 sb * (ct2 * t + s2t * (nsqrt t) * xt + st2 * (pow2 xt)) * (f_myb0 t1 bl #0 q) +
      pow2 cb * (ct2 * t + s2t * (nsqrt t) * yt + st2 * (pow2 yt)) * (f_myb0 t1 bl a0 q) in
    let dm2 := (t2 - t - mu2) * (f_myb0 t2 t mu2 q) - f_myaa t q + ct2 * (t2 - mu2) * (f_myb0 t2 #0 mu2 q) - (#1 +
      ct2) * (f_myaa mu2 q) + pow2 cb * (#1 + ct2) * (f_myaa a0 q) + ct2 * (f_myaa bl q) + (pow2 c2t - (#1 - #1) / #2
      * (pow2 s2t)) * (f_myaa t1 q) + (#1 + #1) / #2 * (pow2 s2t) * (f_myaa t2 q) + #1 / #2 * (pow2 sb * (pow2 (#2 *
      (nsqrt t) - s2t * xt)) * (f_myb0 t2 t2 #0 q) + pow2 cb * (pow2 (#2 * (nsqrt t) - s2t * yt)) * (f_myb0 t2 t2 a0
      q) + pow2 sb * (#1 + pow2 c2t) * (pow2 xt) * (f_myb0 t2 t1 #0 q) + pow2 cb * (#1 + pow2 c2t) * (pow2 yt) *
      (f_myb0 t2 t1 a0 q)) + pow2 sb * (st2 * t - s2t * (nsqrt t) * xt + ct2 * (pow2 xt)) * (f_myb0 t2 bl #0 q) +
      pow2 cb * (st2 * t - s2t * (nsqrt t) * yt + ct2 * (pow2 yt)) * (f_myb0 t2 bl a0 q) in
    let pi12_1 := #1 / #2 * (s2t * ((t1 - mu2) * (f_myb0 t1 #0 mu2 q) - f_myaa mu2 q) + s2t * (pow2 cb) * (f_myaa a0
      q) + s2t * (f_myaa bl q) + (#1 + #1) * c2t * s2t * (f_myaa t1 q - f_myaa t2 q) + pow2 sb * c2t * xt * (#2 *
      (nsqrt t) + s2t * xt) * (f_myb0 t1 t1 #0 q) + pow2 cb * c2t * yt * (#2 * (nsqrt t) + s2t * yt) * (f_myb0 t1 t1
      a0 q) + pow2 sb * c2t * xt * (#2 * (nsqrt t) - s2t * xt) * (f_myb0 t1 t2 #0 q) + pow2 cb * c2t * yt * (#2 *
      (nsqrt t) - s2t * yt) * (f_myb0 t1 t2 a0 q) - pow2 sb * (s2t * t - #2 * c2t * (nsqrt t) * xt - s2t * (pow2 xt))
      * (f_myb0 t1 bl #0 q) - pow2 cb * (s2t * t - #2 * c2t * (nsqrt t) * yt - s2t * (pow2 yt)) * (f_myb0 t1 bl a0
      q)) in
    let pi12_2 := #1 / #2 * (s2t * ((t2 - mu2) * (f_myb0 t2 #0 mu2 q) - f_myaa mu2 q) + s2t * (pow2 cb) * (f_myaa a0
      q) + s2t * (f_myaa bl q) + (#1 + #1) * c2t * s2t * (f_myaa t1 q - f_myaa t2 q) + pow2 sb * c2t * xt * (#2 *
      (nsqrt t) + s2t * xt) * (f_myb0 t2 t1 #0 q) + pow2 cb * c2t * yt * (#2 * (nsqrt t) + s2t * yt) * (f_myb0 t2 t1
      a0 q) + pow2 sb * c2t * xt * (#2 * (nsqrt t) - s2t * xt) * (f_myb0 t2 t2 #0 q) + pow2 cb * c2t * yt * (#2 *
      (nsqrt t) - s2t * yt) * (f_myb0 t2 t2 a0 q) - pow2 sb * (s2t * t - #2 * c2t * (nsqrt t) * xt - s2t * (pow2 xt))
      * (f_myb0 t2 bl #0 q) - pow2 cb * (s2t * t - #2 * c2t * (nsqrt t) * yt - s2t * (pow2 yt)) * (f_myb0 t2 bl a0
      q)) in
    let dth := (pi12_1 + pi12_2) / #2 / (t1 - t2) in
    let ds2t := #2 * c2t * dth in
    let dat := ((dm1 - dm2) / (t1 - t2) + ds2t / s2t - dmt / mt) * xt - mu * dcotb - dmu * cb / sb in
    let df1 := dm1 / t1 + dm2 / t2 - #4 * dmt / mt + (#4 * dmt / mt - dv22 / v22) * f1o in
    let df2 := dm1 / t1 - dm2 / t2 + (#3 * dmt / mt - dv22 / v22 + ds2t / s2t) * f2o in
    let df3 := (#2 * t1 * t2 / (pow2 (t1 - t2)) * (nlog (t1 / t2)) - (t1 + t2) / (t1 - t2)) * (dm1 / t1 - dm2 / t2) +
      (#2 * dmt / mt - dv22 / v22 + #2 * ds2t / s2t) * f3o in
    let ddmuf2 := dmu / mu * f2o in
    let ddmuf3 := dmu / mu * f3o in
    let ddatf2 := dat / a * f2o in
    let ddatf3 := dat / a * f3o in
    let '(df2, ddatf2) :=
      if (s2t =? #0) then
        let df2 := ds2t * f2o in
        let ddatf2 := ds2t * xt / a in
        (df2, ddatf2)
      else (df2, ddatf2) in
    let '(ddmuf2, ddmuf3) :=
      if (mu =? #0) then
        let ddmuf2 := dmu * f2o in
        let ddmuf3 := dmu * f3o in
        (ddmuf2, ddmuf3)
      else (ddmuf2, ddmuf3) in
    let '(ddatf2, ddatf3) :=
      if (a =? #0) then
        let ddatf2 := dat * f2o in
        let ddatf3 := dat * f3o in
        (ddatf2, ddatf3)
      else (ddatf2, ddatf3) in
    (df1, df2, df3, ddmuf2, ddmuf3, ddatf2, ddatf3).

  (** source/himalaya/mh2l/DSZHiggs.f:5725-5838 *)
  Definition f_tausqhiggs (t : T) (a0 : T) (bl : T) (t1 : T) (t2 : T) (st : T) (ct : T) (q : T) (mu : T) (tb : T) (v2 : T) (os : Z) : T * T * T :=
    let tanb := #1 / tb in
    let mt := nsqrt t in
    let s2t := #2 * ct * st in
    let c2t := pow2 ct - pow2 st in
    let x := (t1 - t2) * s2t / #2 / mt in
    let a := x - mu / tanb in
    let sb := nsin (natan tanb) in
    let cb := ncos (natan tanb) in
    let ht := nsqrt (#2 / v2) * mt / sb in
    let k := pow2 ht / (pow2 (#16 * (pow2 pi_f))) in
    let '(f1, f2, f3) := f_taufuncs t a0 bl t1 t2 s2t c2t cb sb q mu in
    let '(dmuf2, dmuf3, datf2, datf3, dm12, dm22) := f_tausfuncs t a0 bl t1 t2 s2t c2t cb sb q mu a ht in
    let '(df1, df2, df3, ddmuf2, ddmuf3, ddatf2, ddatf3) := f_taudfuncs t a0 bl t1 t2 s2t c2t cb sb q mu a v2 in
    let osdr := #1 * (nint os) in
    let s11 := undef in
    let s12 := undef in
    let s22 := undef in
    let f2_s := undef in
    let '(s11, s12, s22, f2_s) :=
      if negb (s2t =? #0) && negb (a =? #0) then
        let s11 := ndec 5 1 * (pow2 ht) * (pow2 mu) * (pow2 s2t) * (f3 + #2 * dmuf3 + osdr * (df3 + #2 * ddmuf3)) in
        let s12 := ndec 5 1 * (pow2 ht) * mu * a * (pow2 s2t) * (f3 + dmuf3 + datf3 + osdr * (df3 + ddmuf3 + ddatf3))
          + pow2 ht * mt * mu * s2t * (f2 + dmuf2 + osdr * (df2 + ddmuf2)) in
        let s22 := ndec 5 1 * (pow2 ht) * (pow2 a) * (pow2 s2t) * (f3 + #2 * datf3 + osdr * (df3 + #2 * ddatf3)) + #2
          * (pow2 ht) * mt * a * s2t * (f2 + datf2 + osdr * (df2 + ddatf2)) + #2 * (pow2 ht) * (pow2 mt) * (f1 + osdr
          * df1) in
        (s11, s12, s22, f2_s)
      else if (s2t =? #0) && (a =? #0) then
        let s11 := #0 in
        let s12 := #0 in
        let s22 := #2 * (pow2 ht) * (pow2 mt) * (f1 + osdr * df1) in
        (s11, s12, s22, f2_s)
      else if (s2t =? #0) && negb (a =? #0) then
        let f2_s := f_tauresfuncs t a0 bl t1 t2 s2t c2t cb sb q mu in
        let s11 := #0 in
        let s12 := pow2 ht * mt * mu * (f2_s + osdr * df2) in
        let s22 := #2 * (pow2 ht) * (pow2 mt) * (f1 + osdr * df1) + #2 * (pow2 ht) * mt * a * (f2_s + osdr * (df2 +
          ddatf2)) in
        (s11, s12, s22, f2_s)
      else if negb (s2t =? #0) && (a =? #0) then
        let s11 := ndec 5 1 * (pow2 ht) * (pow2 mu) * (pow2 s2t) * (f3 + #2 * dmuf3 + osdr * (df3 + #2 * ddmuf3)) in
        let s12 := ndec 5 1 * (pow2 ht) * mu * (pow2 s2t) * osdr * ddatf3 + pow2 ht * mt * mu * s2t * (f2 + dmuf2 +
          osdr * (df2 + ddmuf2)) in
        let s22 := #2 * (pow2 ht) * (pow2 mt) * (f1 + osdr * df1) + #2 * (pow2 ht) * mt * s2t * osdr * ddatf2 in
        (s11, s12, s22, f2_s)
      else (s11, s12, s22, f2_s) in
    let s11 := k * s11 in
    let s12 := k * (s12 + dm12) in
    let s22 := k * (s22 + dm22) in
    let sw := s11 in
    let s11 := s22 in
    let s22 := sw in
    (s11, s22, s12).

  (** source/himalaya/mh2l/DSZHiggs.f:6585-6597 *)
  Definition f_taufaab (t : T) (a0 : T) (bl : T) (t1 : T) (t2 : T) (s2t : T) (c2t : T) (cb : T) (sb : T) (q : T) (mu : T) : T :=
    let taufaab := (#5 + #2 * #1) * (t1 * (#1 - nlog (t1 / q) + pow2 (nlog (t1 / q)) / #2) - t2 * (#1 - nlog (t2 / q)
      + pow2 (nlog (t2 / q)) / #2)) in
    taufaab.

  (** source/himalaya/mh2l/DSZHiggs.f:6603-6696 *)
  Definition f_taufac (t : T) (a0 : T) (bl : T) (t1 : T) (t2 : T) (s2t : T) (c2t : T) (cb : T) (sb : T) (q : T) (mu : T) : T :=
    let mu2 := pow2 mu in
    let mu2 :=
      if (mu2 =? #0) then
        let mu2 := ndec 1 10 in
        mu2
      else mu2 in
    let xt := s2t * (t1 - t2) / #2 / (nsqrt t) in
    let yt := xt - mu / cb / sb in
    let at_ := pow2 sb * xt + pow2 cb * yt in
    let at_ :=
      if (at_ =? #0) then
        let at_ := ndec 1 10 in
        at_
      else at_ in
    let ct2 := (#1 + c2t) / #2 in
    let st2 := (#1 - c2t) / #2 in
    let taufac := - ((f_delt mu2 t t1 + #2 * t * mu2) / t1 * (f_phi mu2 t t1)) + pow2 cb * (pow2 yt) * (a0 * (pow2
      c2t) * (a0 - #2 * (t1 + t2)) / #2 / (t1 - t2) / t2 - pow2 s2t * (t1 - t2) / #4 / t2) * (f_phi a0 t1 t2) + pow2
      cb * (- (a0 * (nsqrt t) * yt * (a0 - #4 * t1) * (#1 / #2 / at_ / t1 / (nsqrt t) - s2t / t1 / (t1 - t2))) - a0 *
      (pow2 c2t) * (pow2 yt) * (a0 - #4 * t1) / #2 / t1 / (t1 - t2) + a0 * (pow2 (#2 * (nsqrt t) + s2t * yt)) / #4 /
      t1) * (f_phi a0 t1 t1) + pow2 cb * (- (nsqrt t * yt * (f_delt a0 bl t1) * (#1 / #2 / at_ / t1 / (nsqrt t) - s2t
      / t1 / (t1 - t2))) + c2t * (f_delt a0 bl t1) * (t - pow2 yt) / #2 / t1 / (t1 - t2) + (a0 + bl - t1) * (ct2 * t
      + s2t * (nsqrt t) * yt + st2 * (pow2 yt)) / #2 / t1) * (f_phi a0 bl t1) - pow2 s2t * (pow2 sb) * (pow2 xt) / #2
      * (f_pli2 (#1 - t2 / t1)) + (mu2 - t1) * (#1 - c2t * (#1 + (mu2 - t1) / (t1 - t2))) * (f_pli2 (#1 - mu2 / t1))
      + (#2 * (pow2 sb) * (nsqrt t) * xt * (bl - t1) * (#1 / #2 / at_ / (nsqrt t) - s2t / (t1 - t2)) - c2t * (pow2
      sb) * (t - pow2 xt) * (bl - t1) / (t1 - t2) - pow2 sb * (ct2 * t + s2t * (nsqrt t) * xt + st2 * (pow2 xt))) *
      (f_pli2 (#1 - bl / t1)) - #21 * (nsqrt t) * t1 * (#1 / #2 / (nsqrt t) - s2t * at_ / (t1 - t2)) - #1 * (pow2
      c2t) * t1 - #9 * s2t * (nsqrt t) * at_ / #2 + c2t / #2 * bl - c2t * t1 / (t1 - t2) * (a0 * (pow2 cb) + #2 * bl
      - #2 * t - #3 * mu2 + #2 * (pow2 sb) * (pow2 xt) + #2 * (pow2 cb) * (pow2 yt)) - t1 / #2 - t1 * (#2 * t1 + #5 *
      t2) / #2 / (t1 - t2) * c2t - t1 * (pow2 c2t) - (#3 + #1) * (t1 - t2) + mu2 * c2t * t2 / (t1 - t2) * (nlog (mu2
      / q)) + bl * c2t * (#3 * t1 + t2) / #2 / (t1 - t2) * (nlog (bl / q)) + a0 * (pow2 cb) * c2t * (#3 * t1 + t2) /
      #2 / (t1 - t2) * (nlog (a0 / q)) + nlog (t2 / q) * (- (#3 * s2t * (nsqrt t) * t2 * at_ / (t1 - t2)) + c2t * t2
      / #2 / (t1 - t2) * (bl + pow2 cb * a0 - #2 * mu2 - t + t1 + pow2 sb * (pow2 xt) + pow2 cb * (pow2 yt)) + ((pow2
      s2t - #2) * t1 + #3 * (#3 * (pow2 s2t) - #4) * t2) / #4 / (t1 - t2) * (pow2 sb * (pow2 xt) + pow2 cb * (pow2
      yt)) + #1 * (t1 + t2) / #4 / (t1 - t2) * (pow2 s2t * (t1 + #2 * t2) - #4 * t2) + pow2 s2t / #4 / (t1 - t2) *
      (pow2 t1 + #3 * t1 * t2 + #2 * (pow2 t2)) - (pow2 t1 - #3 * t1 * t2 + #9 * (pow2 t2)) / #2 / (t1 - t2) - (#3 +
      #1) * t2 - t2 * (bl + #3 * a0 * (pow2 cb) - #6 * mu2 + t) / #2 / (t1 - t2)) + nlog (t1 / q) * (#18 * (nsqrt t)
      * t1 * (#1 / #2 / (nsqrt t) - s2t * at_ / (t1 - t2)) + #3 * s2t * (nsqrt t) * (#2 * t1 - t2) / (t1 - t2) * at_
      + ((#9 + #8 * c2t + #9 * (pow2 c2t)) * t1 + (- #5 + #2 * c2t + pow2 c2t) * t2) / #4 / (t1 - t2) * (pow2 sb *
      (pow2 xt) + pow2 cb * (pow2 yt)) + #1 * (#4 * (#3 - #2 * (pow2 s2t)) * (pow2 t1) + (- #4 + pow2 s2t) * t1 * t2
      + pow2 s2t * (pow2 t2)) / #4 / (t1 - t2) + pow2 c2t * (#8 * (pow2 t1) - t1 * t2 - pow2 t2) / #4 / (t1 - t2) +
      pow2 cb * a0 * (#2 * (#3 + c2t) * t1 - (#3 - c2t) * t2) / #2 / (t1 - t2) + bl * (#2 * (#1 + c2t) * t1 - (#1 -
      c2t) * t2) / #2 / (t1 - t2) - mu2 * (#3 * (#2 + c2t) * t1 - (#3 - c2t) * t2) / (t1 - t2) + t * (#2 * (#1 - #2 *
      c2t) * t1 - (#1 + c2t) * t2) / #2 / (t1 - t2) + c2t * t1 * (t1 + #4 * t2) / #2 / (t1 - t2) + (#3 + #1) * t1 +
      (#20 * (pow2 t1) - #11 * t1 * t2 - pow2 t2) / #4 / (t1 - t2)) + t1 * (nlog (mu2 / q)) * (nlog (t / q)) + (mu2 +
      t - t1) * (nlog (t1 / q)) * (nlog (t / q)) + (mu2 + t - t1 + c2t * (pow2 mu2) / (t1 - t2)) * (nlog (t1 / q)) *
      (nlog (mu2 / q)) + nlog (bl / q) * (nlog (t1 / q)) * (pow2 cb * (a0 - bl - t1) * yt / at_ / #2 - bl * (pow2 sb)
      * xt / at_ + #2 * bl * (nsqrt t) * s2t * at_ / (t1 - t2) - s2t * (pow2 cb) * (nsqrt t) * yt * (a0 + bl - t1) /
      (t1 - t2) - pow2 cb * (nsqrt t) * yt * s2t / #2 - c2t * (pow2 cb) * (a0 + bl - t1) * (t - pow2 yt) / #2 / (t1 -
      t2) + c2t * bl * (t - t1 - pow2 sb * (pow2 xt) - pow2 cb * (pow2 yt)) / (t1 - t2) - (#1 - c2t) / #2 * bl - pow2
      cb * ((#1 + c2t) * t + (#1 - c2t) * (pow2 yt)) / #4) + pow2 cb * (nlog (a0 / q)) * (nlog (t1 / q)) * (- (nsqrt
      t * (#3 * a0 - bl + t1) * yt * (#1 / #2 / at_ / (nsqrt t) - s2t / (t1 - t2))) - nsqrt t * yt * s2t / #2 + pow2
      c2t * (pow2 yt) * (t1 - t2 - #2 * a0) / #4 / (t1 - t2) - (#6 * a0 + t + #2 * (pow2 yt)) / #4 - c2t * (#2 * bl -
      #2 * a0 - t1 - t2) * (t - pow2 yt) / #4 / (t1 - t2) - c2t * a0 * (t1 + t2) / #2 / (t1 - t2)) + pow2 cb * (nlog
      (a0 / q)) * (nlog (bl / q)) * (nsqrt t * t1 * yt * (#1 / #2 / at_ / (nsqrt t) - s2t / (t1 - t2)) + s2t * (nsqrt
      t) * yt / #2 - c2t * (t - pow2 yt) * (t1 + t2) / #2 / (t1 - t2)) + pow2 cb * (a0 * (pow2 c2t) * (pow2 yt) / #2
      / (t1 - t2) + pow2 s2t * (pow2 yt) / #4) * (nlog (a0 / q)) * (nlog (t2 / q)) + pow2 (nlog (t2 / q)) * (#3 * s2t
      * (nsqrt t) * t2 * at_ / #2 / (t1 - t2) + (#2 - c2t + pow2 c2t) * t2 / #4 / (t1 - t2) * (pow2 sb * (pow2 xt) +
      pow2 cb * (pow2 yt)) + #1 * (#1 + pow2 c2t) * (pow2 t2) / #4 / (t1 - t2) - pow2 s2t * (pow2 t2) / #4 / (t1 -
      t2) + bl * t2 * (#1 - c2t) / #4 / (t1 - t2) - (#3 - c2t) * mu2 * t2 / #2 / (t1 - t2) + (#3 - c2t) * a0 * t2 *
      (pow2 cb) / #4 / (t1 - t2) + (#1 + c2t) * t * t2 / #4 / (t1 - t2) + t2 * (#9 * t2 - (#4 + c2t) * t1) / #4 / (t1
      - t2) + (#3 + #1) * t2 / #2) + nlog (t1 / q) * (nlog (t2 / q)) * (#1 * (#4 * t1 * t2 - pow2 s2t * (pow2 (t1 +
      t2))) / #4 / (t1 - t2) + (#1 + pow2 c2t) / #4 * (t1 - t2) + pow2 cb * (pow2 c2t) * (pow2 yt) * (t1 + t2 - a0) /
      #2 / (t1 - t2) + pow2 c2t * t2 * (t1 + pow2 sb * (pow2 xt)) / (t1 - t2)) + pow2 (nlog (t1 / q)) * (pow2 cb *
      (nsqrt t) * yt * (a0 - bl + t1) * (#1 / #2 / at_ / (nsqrt t) - s2t / (t1 - t2)) + nsqrt t * (bl - #6 * t1) *
      (#1 / #2 / (nsqrt t) - s2t * at_ / (t1 - t2)) + pow2 cb * s2t * (nsqrt t) * yt / #2 - #3 * at_ * (nsqrt t) *
      (#2 * t1 - t2) * s2t / #2 / (t1 - t2) + #1 * t1 * (#3 * (- #2 + pow2 s2t) * t1 + #2 * (pow2 s2t) * t2) / #4 /
      (t1 - t2) - pow2 sb * (pow2 xt) / #4 / (t1 - t2) * ((#5 + #2 * c2t + #3 * (pow2 c2t)) * t1 + (- #3 + c2t + #2 *
      (pow2 c2t)) * t2 - #2 * bl * c2t) - pow2 cb * (pow2 yt) / #4 / (t1 - t2) * ((#3 + c2t + #4 * (pow2 c2t)) * t1 -
      pow2 s2t * t2 - #2 * a0 * (pow2 c2t)) - (#3 + c2t) * (pow2 cb) * a0 * t1 / #4 / (t1 - t2) - t1 * bl * (#1 +
      c2t) / #4 / (t1 - t2) - t * c2t * (pow2 sb) * bl / #2 / (t1 - t2) + mu2 / #2 / (t1 - t2) * (#2 * (#2 + c2t) *
      t1 - (#1 - c2t) * t2) - c2t * (pow2 mu2) / #2 / (t1 - t2) + t / #4 / (t1 - t2) * ((- #5 + c2t - (#1 - c2t) *
      (pow2 sb)) * t1 + (#4 + (#1 + c2t) * (pow2 sb)) * t2) - t1 * ((#4 + #3 * (pow2 c2t)) * t1 + c2t * (#3 + #2 *
      c2t) * t2) / #4 / (t1 - t2) - (#3 + #1) * t1 / #2) in
    taufac.

  (** source/himalaya/mh2l/DSZHiggs.f:6702-6724 *)
  Definition f_tauresfac (t : T) (a0 : T) (bl : T) (t1 : T) (t2 : T) (s2t : T) (c2t : T) (cb : T) (sb : T) (q : T) (mu : T) : T :=
    let xt := s2t * (t1 - t2) / #2 / (nsqrt t) in
    let yt := xt - mu / cb / sb in
    let tauresfac := - (pow2 cb * a0 * yt * (a0 - #4 * t1) / #2 / t1 * (f_phi a0 t1 t1)) - pow2 cb * yt * (f_delt a0
      bl t1) / #2 / t1 * (f_phi a0 bl t1) + pow2 sb * xt * (bl - t1) * (f_pli2 (#1 - bl / t1)) + nlog (bl / q) *
      (nlog (t1 / q)) * (pow2 cb * (a0 - bl - t1) * yt / #2 - bl * (pow2 sb) * xt) - pow2 cb * (nlog (a0 / q)) *
      (nlog (t1 / q)) * (#3 * a0 - bl + t1) * yt / #2 + pow2 cb * (nlog (a0 / q)) * (nlog (bl / q)) * t1 * yt / #2 +
      pow2 (nlog (t1 / q)) * (pow2 cb) * yt * (a0 - bl + t1) / #2 in
    tauresfac.

  (** source/himalaya/mh2l/DSZHiggs.f:6564-6579 *)
  Definition f_taufuncsodd (t : T) (a0 : T) (bl : T) (t1 : T) (t2 : T) (s2t : T) (c2t : T) (cb : T) (sb : T) (q : T) (mu : T) : T * T :=
    let fa := f_taufaab t a0 bl t1 t2 s2t c2t cb sb q mu + f_taufac t a0 bl t1 t2 s2t c2t cb sb q mu - f_taufac t a0
      bl t2 t1 (- s2t) (- c2t) cb sb q mu in
    let fa_a := f_tauresfac t a0 bl t1 t2 s2t c2t cb sb q mu - f_tauresfac t a0 bl t2 t1 (- s2t) (- c2t) cb sb q mu in
    (fa, fa_a).

  (** source/himalaya/mh2l/DSZHiggs.f:6495-6558 *)
  Definition f_tausqodd (t : T) (a0 : T) (bl : T) (t1 : T) (t2 : T) (st : T) (ct : T) (q : T) (mu : T) (tb : T) (v2 : T) : T :=
    let tanb := #1 / tb in
    let mt := nsqrt t in
    let s2t := #2 * ct * st in
    let c2t := pow2 ct - pow2 st in
    let x := (t1 - t2) * s2t / #2 / mt in
    let a := x - mu / tanb in
    let sb := nsin (natan tanb) in
    let cb := ncos (natan tanb) in
    let ht := nsqrt (#2 / v2) * mt / sb in
    let k := pow2 ht / (pow2 (#16 * (pow2 pi_f))) in
    let '(fa, fa_a) := f_taufuncsodd t a0 bl t1 t2 s2t c2t cb sb q mu in
    let dma := undef in
    let dma :=
      if (nabs a >? ndec 1 10) then
        let dma := pow2 ht * mu * a / (t1 - t2) / sb / cb * fa in
        dma
      else
        let dma := pow2 ht * mu / (t1 - t2) / sb / cb * fa_a in
        dma in
    let dma := k * dma in
    dma.

  (** the guards at the beginning of DDSHiggs (source/himalaya/mh2l/DSZHiggs.f:35-136) and, word for word, of DDSodd (:195-295): new values of T1, B1, B2, st, ct,
      sb, cb.  The dummy arguments are the variables of the C++ caller, so that these changes are visible there. *)
  Definition dds_guards (t1 t2 b1 b2 st ct sb cb : T) : T * T * T * T * T * T * T :=
    let st :=
      if (nabs st <? ndec 1 5) then
        let st :=
          if (st >=? #0) then
            let st := ndec 1 5 in
            st
          else
            let st := - (ndec 1 5) in
            st in
        st
      else st in
    let ct := nsqrt (#1 - st * st) in
    let t1 :=
      if (nabs ((t1 - t2) / t1) <? ndec 1 5) then
        let t1 :=
          if (t1 >? t2) then
            let t1 := t2 / (#1 - ndec 1 5) in
            t1
          else
            let t1 := t2 / (#1 + ndec 1 5) in
            t1 in
        t1
      else t1 in
    let sb :=
      if (nabs sb <? ndec 1 8) then
        let sb :=
          if (sb >=? #0) then
            let sb := ndec 1 8 in
            sb
          else
            let sb := - (ndec 1 8) in
            sb in
        sb
      else sb in
    let cb := nsqrt (#1 - sb * sb) in
    let b1 :=
      if (nabs ((b1 - b2) / b1) <? ndec 1 5) then
        let b1 :=
          if (b1 >? b2) then
            let b1 := b2 / (#1 - ndec 1 5) in
            b1
          else
            let b1 := b2 / (#1 + ndec 1 5) in
            b1 in
        b1
      else b1 in
    let b1 :=
      if (nabs ((b1 - t1) / b1) <? ndec 1 6) then
        let b1 :=
          if (b1 >? t1) then
            let b1 := t1 / (#1 - ndec 1 6) in
            b1
          else
            let b1 := t1 / (#1 + ndec 1 6) in
            b1 in
        b1
      else b1 in
    let b1 :=
      if (nabs ((b1 - t2) / b1) <? ndec 1 7) then
        let b1 :=
          if (b1 >? t2) then
            let b1 := t2 / (#1 - ndec 1 7) in
            b1
          else
            let b1 := t2 / (#1 + ndec 1 7) in
            b1 in
        b1
      else b1 in
    let b2 :=
      if (nabs ((b2 - t1) / b2) <? ndec 1 8) then
        let b2 :=
          if (b2 >? t1) then
            let b2 := t1 / (#1 - ndec 1 8) in
            b2
          else
            let b2 := t1 / (#1 + ndec 1 8) in
            b2 in
        b2
      else b2 in
    let b2 :=
      if (nabs ((b2 - t2) / b2) <? ndec 1 9) then
        let b2 :=
          if (b2 >? t2) then
            let b2 := t2 / (#1 - ndec 1 9) in
            b2
          else
            let b2 := t2 / (#1 + ndec 1 9) in
            b2 in
        b2
      else b2 in
    (t1, b1, b2, st, ct, sb, cb).

  (** source/himalaya/mh2l/DSZHiggs.f:139-184, after the guards *)
  Definition f_ddshiggs_core (t : T) (b : T) (a0 : T) (t1 : T) (t2 : T) (b1 : T) (b2 : T) (st : T) (ct : T) (sb : T) (cb : T) (q : T) (mu : T) (tanb : T) (vv : T) (atat : Z) : T * T * T :=
    let mt := nsqrt t in
    let mb := nsqrt b in
    let s2t := #2 * ct * st in
    let s2b := #2 * cb * sb in
    let c2t := pow2 ct - pow2 st in
    let c2b := pow2 cb - pow2 sb in
    let xt := (t1 - t2) * s2t / #2 / mt in
    let xb := (b1 - b2) * s2b / #2 / mb in
    let at_ := xt - mu / tanb in
    let ab := xb - mu * tanb in
    let sbe := nsin (natan tanb) in
    let cbe := ncos (natan tanb) in
    let ht := nsqrt (#2 / vv) * mt / sbe in
    let hb := undef in
    let hb :=
      if (atat =? 1)%Z then
        let hb := #0 in
        hb
      else
        let hb := nsqrt (#2 / vv) * mb / cbe in
        hb in
    let k := #3 / (pow2 (#16 * (pow2 pi_f))) in
    let '(f1t, f2t, f3t, f4t, f1b, f2b, f3b, f4b, f5, f6, ft_, fb, gt, gb, fap) := fx_makefuncs fx t b a0 t1 t2 b1 b2
      s2t c2t s2b c2b q mu vv tanb atat in
    let s11 := ndec 5 1 * (pow2 ht) * (pow2 mu) * (pow2 s2t) * f3t + #2 * (pow2 hb) * (pow2 mb) * f1b + #2 * (pow2
      hb) * ab * mb * s2b * f2b + ndec 5 1 * (pow2 hb) * (pow2 ab) * (pow2 s2b) * f3b + #2 * hb * ht * mb * mu * s2t
      * f4t + ht * hb * mu * ab * s2t * s2b * f5 in
    let s12 := pow2 ht * mu * mt * s2t * f2t + ndec 5 1 * (pow2 ht) * at_ * mu * (pow2 s2t) * f3t + pow2 hb * mu * mb
      * s2b * f2b + ndec 5 1 * (pow2 hb) * ab * mu * (pow2 s2b) * f3b + ht * hb * mb * at_ * s2t * f4t + hb * ht * mt
      * ab * s2b * f4b + ndec 5 1 * ht * hb * s2t * s2b * (at_ * ab + pow2 mu) * f5 + #2 * ht * hb * mt * mb * f6 in
    let s22 := ndec 5 1 * (pow2 hb) * (pow2 mu) * (pow2 s2b) * f3b + #2 * (pow2 ht) * (pow2 mt) * f1t + #2 * (pow2
      ht) * at_ * mt * s2t * f2t + ndec 5 1 * (pow2 ht) * (pow2 at_) * (pow2 s2t) * f3t + #2 * ht * hb * mt * mu *
      s2b * f4b + hb * ht * mu * at_ * s2b * s2t * f5 in
    let s11 := k * s11 in
    let s12 := k * s12 in
    let s22 := k * s22 in
    (s11, s12, s22).

  (** source/himalaya/mh2l/DSZHiggs.f:298-329, after the guards *)
  Definition f_ddsodd_core (t : T) (b : T) (a0 : T) (t1 : T) (t2 : T) (b1 : T) (b2 : T) (st : T) (ct : T) (sb : T) (cb : T) (q : T) (mu : T) (tanb : T) (vv : T) (atat : Z) : T :=
    let mt := nsqrt t in
    let mb := nsqrt b in
    let s2t := #2 * ct * st in
    let s2b := #2 * cb * sb in
    let c2t := pow2 ct - pow2 st in
    let c2b := pow2 cb - pow2 sb in
    let xt := (t1 - t2) * s2t / #2 / mt in
    let xb := (b1 - b2) * s2b / #2 / mb in
    let at_ := xt - mu / tanb in
    let ab := xb - mu * tanb in
    let sbe := nsin (natan tanb) in
    let cbe := ncos (natan tanb) in
    let ht := nsqrt (#2 / vv) * mt / sbe in
    let hb := undef in
    let hb :=
      if (atat =? 1)%Z then
        let hb := #0 in
        hb
      else
        let hb := nsqrt (#2 / vv) * mb / cbe in
        hb in
    let k := #3 / (pow2 (#16 * (pow2 pi_f))) in
    let '(f1t, f2t, f3t, f4t, f1b, f2b, f3b, f4b, f5, f6, ft_, fb, gt, gb, fap) := fx_makefuncs fx t b a0 t1 t2 b1 b2
      s2t c2t s2b c2b q mu vv tanb atat in
    let dma := - ((pow2 ht * mu * at_ / (t1 - t2) * ft_ + pow2 hb * mu * ab / (b1 - b2) * fb + #2 * ht * hb * fap) /
      sbe / cbe) in
    let dma := k * dma in
    dma.

  (** what the addresses passed by the C++ code hold after the calls *)
  Definition f_ddshiggs (t b a0 t1 t2 b1 b2 st ct sb cb q mu tanb vv : T) (atat : Z) : (T * T * T * T * T * T * T) * (T * T * T) :=
    let '(t1, b1, b2, st, ct, sb, cb) := dds_guards t1 t2 b1 b2 st ct sb cb in
    ((t1, b1, b2, st, ct, sb, cb), f_ddshiggs_core t b a0 t1 t2 b1 b2 st ct sb cb q mu tanb vv atat).
  Definition f_ddsodd (t b a0 t1 t2 b1 b2 st ct sb cb q mu tanb vv : T) (atat : Z) : T :=
    let '(t1, b1, b2, st, ct, sb, cb) := dds_guards t1 t2 b1 b2 st ct sb cb in
    f_ddsodd_core t b a0 t1 t2 b1 b2 st ct sb cb q mu tanb vv atat.

  (** the routines the library is linked with *)
  Definition fortran : Fort T :=
    mkFort (fun t mg t1 t2 st ct q mu tanb v2 gs os => f_dszhiggs t mg t1 t2 st ct q mu tanb v2 gs os)
      (fun t mg t1 t2 st ct q mu tanb v2 gs => f_dszodd t mg t1 t2 st ct q mu tanb v2 gs)
      f_ddshiggs f_ddsodd f_tausqhiggs f_tausqodd f_taubot f_taubotodd (fx_li2 fx).
End Fortran.
