(** * The corrections as polynomials in Xt
    GENERATED by tools/gen_xt.py; not part of the model, only used in proofs. *)
From Coq Require Import Reals ZArith Bool String.
From Verif Require Import Num Except Params HierFormulas Dilog LoopFun Thresh ThreshTwo NumFacts ThreshViews.
Open Scope num_scope.
Local Notation "a + b" := (@nadd R NumR a b) : num_scope. Local Notation "a - b" := (@nsub R NumR a b) : num_scope.
Local Notation "a * b" := (@nmul R NumR a b) : num_scope. Local Notation "a / b" := (@ndiv R NumR a b) : num_scope.
Local Notation "- a" := (@nneg R NumR a) : num_scope. Local Notation "# z" := (@nint R NumR z) (at level 1, z constr at level 0) : num_scope.
Local Notation nlog := (@Num.nlog R NumR).

Lemma p2 x : pow2 x = (x ^ 2)%R. Proof. unfold pow2. unR. ring. Qed.
Lemma p3 x : pow3 x = (x ^ 3)%R. Proof. unfold pow3. unR. ring. Qed.
Lemma p4 x : pow4 x = (x ^ 4)%R. Proof. unfold pow4, pow2. unR. ring. Qed.
Lemma p6 x : pow6 x = (x ^ 6)%R. Proof. unfold pow6, pow2. unR. ring. Qed.
Lemma p5 x : pow5 x = (x ^ 5)%R. Proof. unfold pow5, pow4, pow2. unR. ring. Qed.

Definition yta_G_0 (mQ32 mU32 m32 mQ3 mU3 m3 lmQ3MR : R) : R :=
    (#2 * (((((#(-2) * lmQ3MR) + ((mQ32 * mU32) / (((- m32) + mQ32) * (m32 - mU32)))) + ((pow4 m3) / ((m32 -
      mQ32) * (m32 - mU32)))) - (((mU32 * (nlog (mU32 / (pow2 mQ3)))) * ((((#2 * m32) * (mQ32 - mU32)) -
      (mQ32 * mU32)) + (pow4 mU3))) / (((- mQ32) + mU32) * (pow2 (m32 - mU32))))) - ((((nlog (m32 / (pow2
      mQ3))) * (pow3 m3)) * (((- ((#2 * (mQ32 + mU32)) * (pow3 m3))) + (m3 * ((pow4 mQ3) + (pow4 mU3)))) +
      (#2 * (pow5 m3)))) / ((pow2 (m32 - mQ32)) * (pow2 (m32 - mU32)))))) / #3.
Definition yta_G_1 (mQ32 mU32 m32 mQ3 mU3 m3 lmQ3MR : R) : R :=
    (#2 * ((- (((mU32 * (nlog (mU32 / (pow2 mQ3)))) * ((- (((#4 * m3) * mU32) * #1)) + ((#4 * #1) * (pow3
      m3)))) / (((- mQ32) + mU32) * (pow2 (m32 - mU32))))) - ((((nlog (m32 / (pow2 mQ3))) * (pow3 m3)) *
      (((((#(-4) * mQ32) * mU32) * #1) + (((#4 * m32) * (mQ32 + mU32)) * #1)) - ((#4 * #1) * (pow4 m3)))) /
      ((pow2 (m32 - mQ32)) * (pow2 (m32 - mU32)))))) / #3.
Lemma yta_G_poly (mQ32 mU32 m32 mQ3 mU3 m3 Xt lmQ3MR : R) : yta_G mQ32 mU32 m32 mQ3 mU3 m3 Xt lmQ3MR = (yta_G_0 mQ32 mU32 m32 mQ3 mU3 m3 lmQ3MR * Xt^0 + yta_G_1 mQ32 mU32 m32 mQ3 mU3 m3 lmQ3MR * Xt^1)%R.
Proof. unfold yta_G, yta_G_0, yta_G_1. rewrite ?(p2 Xt), ?(p3 Xt), ?(p4 Xt), ?(p5 Xt). unR. unfold Rdiv. first [ring|unfold pow5, pow4, pow3, pow2; unR; ring]. Qed.

Definition yta_QU_0 (mQ32 m32 mQ3 m3 lmQ3MR : R) : R :=
    (#(-2) * (((m32 - mQ32) * (((#(-1) + (#2 * lmQ3MR)) * m32) - ((#1 + (#2 * lmQ3MR)) * mQ32))) + (((#2 *
      m3) * (nlog (m32 / (pow2 mQ3)))) * (pow3 m3)))) / (#3 * (pow2 (m32 - mQ32))).
Definition yta_QU_1 (mQ32 m32 mQ3 m3 lmQ3MR : R) : R :=
    (#(-2) * (((m32 - mQ32) * ((#4 * m3) * #1)) + (((#2 * (- (#2 * #1))) * (nlog (m32 / (pow2 mQ3)))) * (pow3
      m3)))) / (#3 * (pow2 (m32 - mQ32))).
Lemma yta_QU_poly (mQ32 m32 mQ3 m3 Xt lmQ3MR : R) : yta_QU mQ32 m32 mQ3 m3 Xt lmQ3MR = (yta_QU_0 mQ32 m32 mQ3 m3 lmQ3MR * Xt^0 + yta_QU_1 mQ32 m32 mQ3 m3 lmQ3MR * Xt^1)%R.
Proof. unfold yta_QU, yta_QU_0, yta_QU_1. rewrite ?(p2 Xt), ?(p3 Xt), ?(p4 Xt), ?(p5 Xt). unR. unfold Rdiv. first [ring|unfold pow5, pow4, pow3, pow2; unR; ring]. Qed.

Definition yta_QM_0 (mQ32 mU32 mQ3 lmQ3MR : R) : R :=
    ((#(-4) * lmQ3MR) - ((((mQ32 - mU32) * (mQ32 - (#3 * mU32))) + (((#2 * mU32) * ((#(-2) * mQ32) + mU32)) *
      (nlog (mU32 / (pow2 mQ3))))) / (pow2 (mQ32 - mU32)))) / #3.
Definition yta_QM_1 (mQ32 mU32 mQ3 lmQ3MR : R) : R :=
    (- ((((mQ32 - mU32) * (- ((#8 * mQ3) * #1))) + (((#2 * mU32) * (- ((#4 * mQ3) * #1))) * (nlog (mU32 /
      (pow2 mQ3))))) / (pow2 (mQ32 - mU32)))) / #3.
Lemma yta_QM_poly (mQ32 mU32 mQ3 Xt lmQ3MR : R) : yta_QM mQ32 mU32 mQ3 Xt lmQ3MR = (yta_QM_0 mQ32 mU32 mQ3 lmQ3MR * Xt^0 + yta_QM_1 mQ32 mU32 mQ3 lmQ3MR * Xt^1)%R.
Proof. unfold yta_QM, yta_QM_0, yta_QM_1. rewrite ?(p2 Xt), ?(p3 Xt), ?(p4 Xt), ?(p5 Xt). unR. unfold Rdiv. first [ring|unfold pow5, pow4, pow3, pow2; unR; ring]. Qed.

Definition yta_UM_0 (mQ32 mU32 mQ3 mU3 lmQ3MR : R) : R :=
    (#2 * (((#(-2) * lmQ3MR) + (((#(-3) * mQ32) + (mU3 * mU3)) / (#2 * (mQ32 - mU32)))) - (((nlog (mU32 /
      (pow2 mQ3))) * (((((#(-2) * mQ32) * mU3) * mU3) + (pow4 mQ3)) + (#2 * (pow4 mU3)))) / (pow2 (mQ32 -
      mU32))))) / #3.
Definition yta_UM_1 (mQ32 mU32 mQ3 mU3 lmQ3MR : R) : R :=
    (#2 * (((mU3 * (- (#8 * #1))) / (#2 * (mQ32 - mU32))) - (((nlog (mU32 / (pow2 mQ3))) * (((#(-2) * mQ32) *
      mU3) * (- (#2 * #1)))) / (pow2 (mQ32 - mU32))))) / #3.
Lemma yta_UM_poly (mQ32 mU32 mQ3 mU3 Xt lmQ3MR : R) : yta_UM mQ32 mU32 mQ3 mU3 Xt lmQ3MR = (yta_UM_0 mQ32 mU32 mQ3 mU3 lmQ3MR * Xt^0 + yta_UM_1 mQ32 mU32 mQ3 mU3 lmQ3MR * Xt^1)%R.
Proof. unfold yta_UM, yta_UM_0, yta_UM_1. rewrite ?(p2 Xt), ?(p3 Xt), ?(p4 Xt), ?(p5 Xt). unR. unfold Rdiv. first [ring|unfold pow5, pow4, pow3, pow2; unR; ring]. Qed.

Definition yta_QUM_0 (mQ3 lmQ3MR : R) : R :=
    (#(-4) * (mQ3 + (lmQ3MR * mQ3))) / (#3 * mQ3).
Definition yta_QUM_1 (mQ3 lmQ3MR : R) : R :=
    (#(-4) * (- #1)) / (#3 * mQ3).
Lemma yta_QUM_poly (mQ3 Xt lmQ3MR : R) : yta_QUM mQ3 Xt lmQ3MR = (yta_QUM_0 mQ3 lmQ3MR * Xt^0 + yta_QUM_1 mQ3 lmQ3MR * Xt^1)%R.
Proof. unfold yta_QUM, yta_QUM_0, yta_QUM_1. rewrite ?(p2 Xt), ?(p3 Xt), ?(p4 Xt), ?(p5 Xt). unR. unfold Rdiv. first [ring|unfold pow5, pow4, pow3, pow2; unR; ring]. Qed.

Definition lat_G_0 (mQ32 mU32 lmQ3MR : R) : R :=
    (#12 * lmQ3MR) + (#6 * (nlog (mU32 / mQ32))).
Definition lat_G_1 (mQ32 mU32 lmQ3MR : R) : R :=
    #0.
Definition lat_G_2 (mQ32 mU32 lmQ3MR : R) : R :=
    (- ((#12 * (#1 * #1)) / (mQ32 - mU32))) * (nlog (mU32 / mQ32)).
Definition lat_G_3 (mQ32 mU32 lmQ3MR : R) : R :=
    #0.
Definition lat_G_4 (mQ32 mU32 lmQ3MR : R) : R :=
    ((#12 * (((#1 * #1) * #1) * #1)) / (pow2 (mQ32 - mU32))) + ((((#6 * (mQ32 + mU32)) / (pow3 (mQ32 -
      mU32))) * (((#1 * #1) * #1) * #1)) * (nlog (mU32 / mQ32))).
Lemma lat_G_poly (mQ32 mU32 Xt lmQ3MR : R) : lat_G mQ32 mU32 Xt lmQ3MR = (lat_G_0 mQ32 mU32 lmQ3MR * Xt^0 + lat_G_1 mQ32 mU32 lmQ3MR * Xt^1 + lat_G_2 mQ32 mU32 lmQ3MR * Xt^2 + lat_G_3 mQ32 mU32 lmQ3MR * Xt^3 + lat_G_4 mQ32 mU32 lmQ3MR * Xt^4)%R.
Proof. unfold lat_G, lat_G_0, lat_G_1, lat_G_2, lat_G_3, lat_G_4. rewrite ?(p2 Xt), ?(p3 Xt), ?(p4 Xt), ?(p5 Xt). unR. unfold Rdiv. first [ring|unfold pow5, pow4, pow3, pow2; unR; ring]. Qed.

Definition lat_QU_0 (mQ32 lmQ3MR : R) : R :=
    #12 * lmQ3MR.
Definition lat_QU_1 (mQ32 lmQ3MR : R) : R :=
    #0.
Definition lat_QU_2 (mQ32 lmQ3MR : R) : R :=
    (#12 * (#1 * #1)) / mQ32.
Definition lat_QU_3 (mQ32 lmQ3MR : R) : R :=
    #0.
Definition lat_QU_4 (mQ32 lmQ3MR : R) : R :=
    - ((((#1 * #1) * #1) * #1) / (pow2 mQ32)).
Lemma lat_QU_poly (mQ32 Xt lmQ3MR : R) : lat_QU mQ32 Xt lmQ3MR = (lat_QU_0 mQ32 lmQ3MR * Xt^0 + lat_QU_1 mQ32 lmQ3MR * Xt^1 + lat_QU_2 mQ32 lmQ3MR * Xt^2 + lat_QU_3 mQ32 lmQ3MR * Xt^3 + lat_QU_4 mQ32 lmQ3MR * Xt^4)%R.
Proof. unfold lat_QU, lat_QU_0, lat_QU_1, lat_QU_2, lat_QU_3, lat_QU_4. rewrite ?(p2 Xt), ?(p3 Xt), ?(p4 Xt), ?(p5 Xt). unR. unfold Rdiv. first [ring|unfold pow5, pow4, pow3, pow2; unR; ring]. Qed.

Definition yta2_G_0 (Li2 : R -> R) (mQ32 mU32 m32 mQ3 mU3 m3 msq2 msq lmQ3MR : R) : R :=
    let logmqQ3 := nlog (msq2 / mQ32) in
    let logU3Q3 := nlog (mU32 / mQ32) in
    let logm3Q3 := nlog (m32 / mQ32) in
    (((((((((((((((#4 * (pow2 lmQ3MR)) - (#60 * (pow2 logmqQ3))) + ((((#60 * (mQ32 - msq2)) * (Li2 (#1 -
      (msq2 / mQ32)))) * ((((#(-3) * m32) * (mQ32 - msq2)) + (mQ32 * (mQ32 + msq2))) - (#2 * (pow4 m3)))) /
      (pow3 (m32 - mQ32)))) + ((((#60 * (msq2 - mU32)) * (Li2 (#1 - (msq2 / mU32)))) * ((((#(-3) * m32) *
      (msq2 - mU32)) - (mU32 * (msq2 + mU32))) + (#2 * (pow4 m3)))) / (pow3 (m32 - mU32)))) + (((#60 * (m32 -
      msq2)) * (Li2 (#1 - (msq2 / m32)))) * (((((((#1 / ((- m32) + mQ32)) + (#1 / ((- m32) + mU32))) + ((#3 *
      mU32) / (pow2 (m32 - mU32)))) + ((mQ32 * (((#(-3) * m32) + (#3 * mQ32)) + (#4 * msq2))) / (pow3 ((-
      m32) + mQ32)))) - (msq2 * ((#3 * ((#1 / (pow2 (m32 - mQ32))) + (#1 / (pow2 (m32 - mU32))))) + ((#4 *
      mU32) / (pow3 (m32 - mU32)))))) + ((#4 * (pow4 mQ3)) / (pow3 (m32 - mQ32)))) + ((#4 * (pow4 mU3)) /
      (pow3 (m32 - mU32)))))) - (((#20 * logmqQ3) * ((((((((#3 * mQ32) * msq2) * (pow4 mU3)) + ((pow4 mQ3) *
      (((#3 * msq2) * mU32) + (#10 * (pow4 mU3))))) + ((pow4 m3) * (((((#(-15) * msq2) * mU32) + (mQ32 *
      ((#(-15) * msq2) + (#44 * mU32)))) + (#11 * (pow4 mQ3))) + (#11 * (pow4 mU3))))) + ((#3 * m32) *
      (((((#3 * msq2) - (#7 * mU32)) * (pow4 mQ3)) + ((#3 * msq2) * (pow4 mU3))) - (mQ32 * (((#4 * msq2) *
      mU32) + (#7 * (pow4 mU3))))))) + ((((#(-23) * mQ32) + (#18 * msq2)) - (#23 * mU32)) * (pow6 m3))) +
      (#12 * (pow8 m3)))) / ((pow2 (m32 - mQ32)) * (pow2 (m32 - mU32))))) + ((((((- ((mQ32 * mU32) * ((((#6 *
      mU32) * ((#10 * msq2) + mU32)) + (mQ32 * ((#60 * msq2) + (#169 * mU32)))) + (#6 * (pow4 mQ3))))) +
      ((pow4 m3) * (((((#4 * mQ32) * ((#75 * msq2) - (#28 * mU32))) + ((#300 * msq2) * mU32)) + (#93 * (pow4
      mQ3))) + (#93 * (pow4 mU3))))) - ((#6 * (((#47 * mQ32) + (#60 * msq2)) + (#47 * mU32))) * (pow6 m3))) -
      ((#2 * m32) * (((((#2 * ((#45 * msq2) - (#52 * mU32))) * (pow4 mQ3)) + ((#9 * ((#10 * msq2) + mU32)) *
      (pow4 mU3))) - ((#8 * mQ32) * (((#15 * msq2) * mU32) + (#13 * (pow4 mU3))))) + (#9 * (pow6 mQ3))))) +
      (#291 * (pow8 m3))) / ((pow2 (m32 - mQ32)) * (pow2 (m32 - mU32))))) - ((((#2 * (mQ32 - mU32)) * (Li2
      (#1 - (mU32 / mQ32)))) * (((((((((((((#(-76) * mQ32) * mU32) + (#34 * (pow4 mQ3))) + (#34 * (pow4
      mU3))) * (pow6 m3)) + ((#7 * (pow4 mU3)) * (pow6 mQ3))) + ((pow4 m3) * (((((#65 * mU32) * (pow4 mQ3)) +
      ((#65 * mQ32) * (pow4 mU3))) - (#29 * (pow6 mQ3))) - (#29 * (pow6 mU3))))) + ((#7 * (pow4 mQ3)) * (pow6
      mU3))) - ((#14 * (mQ32 + mU32)) * (pow8 m3))) + ((#3 * mU32) * (pow8 mQ3))) + ((#3 * mQ32) * (pow8
      mU3))) + (m32 * ((((((#(-34) * (pow4 mQ3)) * (pow4 mU3)) - ((#26 * mU32) * (pow6 mQ3))) - ((#26 * mQ32)
      * (pow6 mU3))) + (#9 * (pow8 mQ3))) + (#9 * (pow8 mU3))))) + (#12 * (power10 m3)))) / ((pow3 (m32 -
      mQ32)) * (pow3 (m32 - mU32))))) + (((pow2 logU3Q3) * ((((((((((mQ32 - mU32) * (pow4 mU3)) * (((((#4 *
      mQ32) * mU32) + (#3 * (pow4 mQ3))) + (#30 * (pow4 msq))) + (#21 * (pow4 mU3)))) + ((#2 * ((((mQ32 *
      ((#30 * msq2) - (#34 * mU32))) - ((#30 * msq2) * mU32)) + (pow4 mQ3)) - (#351 * (pow4 mU3)))) * (pow6
      m3))) - (((#2 * m32) * mU32) * (((((#18 * mU32) * (pow4 mQ3)) + ((#6 * mU32) * ((((#(-15) * msq2) *
      mU32) + (#5 * (pow4 msq))) + (#4 * (pow4 mU3))))) + (mQ32 * ((((#90 * msq2) * mU32) - (#30 * (pow4
      msq))) + (#25 * (pow4 mU3))))) - (#3 * (pow6 mQ3))))) + ((pow4 m3) * (((((((#33 * mU32) * (pow4 mQ3)) +
      ((#90 * mU32) * (pow4 msq))) - ((#120 * msq2) * (pow4 mU3))) + (mQ32 * ((((#120 * msq2) * mU32) - (#90
      * (pow4 msq))) + (#141 * (pow4 mU3))))) - (#9 * (pow6 mQ3))) + (#347 * (pow6 mU3))))) + (((#(-44) *
      mQ32) + (#556 * mU32)) * (pow8 m3))) - (#128 * (power10 m3))) / (mQ32 - mU32)) + ((((m32 - mU32) * ((-
      mQ32) + mU32)) * (((((((((((((#(-76) * mQ32) * mU32) + (#34 * (pow4 mQ3))) + (#34 * (pow4 mU3))) *
      (pow6 m3)) + ((#7 * (pow4 mU3)) * (pow6 mQ3))) + ((pow4 m3) * (((((#65 * mU32) * (pow4 mQ3)) + ((#65 *
      mQ32) * (pow4 mU3))) - (#29 * (pow6 mQ3))) - (#29 * (pow6 mU3))))) + ((#7 * (pow4 mQ3)) * (pow6 mU3)))
      - ((#14 * (mQ32 + mU32)) * (pow8 m3))) + ((#3 * mU32) * (pow8 mQ3))) + ((#3 * mQ32) * (pow8 mU3))) +
      (m32 * ((((((#(-34) * (pow4 mQ3)) * (pow4 mU3)) - ((#26 * mU32) * (pow6 mQ3))) - ((#26 * mQ32) * (pow6
      mU3))) + (#9 * (pow8 mQ3))) + (#9 * (pow8 mU3))))) + (#12 * (power10 m3)))) / (pow3 (m32 - mQ32))))) /
      (pow4 (m32 - mU32)))) + (((#2 * logU3Q3) * (((#10 * logmqQ3) * (((((#(-2) * ((#3 * msq2) + mU32)) *
      (pow4 m3)) + ((#3 * mU32) * (pow4 msq))) + ((#3 * m32) * ((((#(-6) * msq2) * mU32) + (#3 * (pow4 msq)))
      + (pow4 mU3)))) - (pow6 mU3))) + (((((((- (((mQ32 * (mQ32 - mU32)) * ((((#2 * mQ32) * ((#15 * msq2) -
      (#64 * mU32))) + (#3 * (pow4 mQ3))) - (#3 * (pow4 mU3)))) * (pow4 mU3))) + ((mU32 * (pow4 m3)) *
      ((((((#6 * ((#30 * msq2) + (#157 * mU32))) * (pow4 mQ3)) - ((#5 * mQ32) * (((#42 * msq2) * mU32) - (#5
      * (pow4 mU3))))) + ((#30 * msq2) * (pow4 mU3))) + (#163 * (pow6 mQ3))) - (#106 * (pow6 mU3))))) +
      ((pow6 m3) * (((((#(-622) * mU32) * (pow4 mQ3)) - ((#5 * mQ32) * (((#18 * msq2) * mU32) + (#197 * (pow4
      mU3))))) + (#53 * (pow6 mQ3))) + (#18 * (((#5 * msq2) * (pow4 mU3)) + (pow6 mU3)))))) + (((((#764 *
      mQ32) * mU32) - (#105 * (pow4 mQ3))) + (#365 * (pow4 mU3))) * (pow8 m3))) - ((m32 * mU32) * ((((((#(-6)
      * (pow4 mQ3)) * (((#25 * msq2) * mU32) - (#41 * (pow4 mU3)))) + (((#90 * msq2) + (#271 * mU32)) * (pow6
      mQ3))) + ((#3 * mQ32) * (((#20 * msq2) * (pow4 mU3)) - (#93 * (pow6 mU3))))) + (#9 * (pow8 mQ3))) + (#9
      * (pow8 mU3))))) + ((#4 * ((#13 * mQ32) - (#77 * mU32))) * (power10 m3))) / ((mQ32 - mU32) * (pow2 (m32
      - mQ32)))))) / (pow3 (m32 - mU32)))) - ((#4 * lmQ3MR) * ((((#20 * logmqQ3) - ((logU3Q3 * ((((((#8 *
      mU32) * (mQ32 + (#15 * mU32))) * (pow4 m3)) + (((#34 * mQ32) - (#98 * mU32)) * (pow6 m3))) + ((#23 *
      (mQ32 - mU32)) * (pow6 mU3))) + (m32 * (((#(-69) * mQ32) * (pow4 mU3)) + (#5 * (pow6 mU3)))))) / (((-
      mQ32) + mU32) * (pow3 (m32 - mU32))))) + (((((((((#(-463) * m32) * mQ32) * mU32) * (mQ32 + mU32)) +
      ((#202 * (pow4 mQ3)) * (pow4 mU3))) + ((pow4 m3) * ((((#1044 * mQ32) * mU32) + (#257 * (pow4 mQ3))) +
      (#257 * (pow4 mU3))))) - ((#573 * (mQ32 + mU32)) * (pow6 m3))) + (#312 * (pow8 m3))) / ((pow2 (m32 -
      mQ32)) * (pow2 (m32 - mU32))))) - ((logm3Q3 * (((((((#154 * (pow12 m3)) + ((((#72 * m32) * (mQ32 +
      mU32)) * (pow4 mQ3)) * (pow4 mU3))) - ((#24 * (pow6 mQ3)) * (pow6 mU3))) - ((pow6 m3) * (((((#95 *
      mU32) * (pow4 mQ3)) + ((#95 * mQ32) * (pow4 mU3))) + (#33 * (pow6 mQ3))) + (#33 * (pow6 mU3))))) -
      ((pow4 m3) * ((((#152 * (pow4 mQ3)) * (pow4 mU3)) + ((#11 * mU32) * (pow6 mQ3))) + ((#11 * mQ32) *
      (pow6 mU3))))) + (((((#406 * mQ32) * mU32) + (#163 * (pow4 mQ3))) + (#163 * (pow4 mU3))) * (pow8 m3)))
      - ((#288 * (mQ32 + mU32)) * (power10 m3)))) / ((pow3 (m32 - mQ32)) * (pow3 (m32 - mU32))))))) + ((#2 *
      (pow2 logm3Q3)) * (((#(-15) * (m32 - msq2)) * (((((((#1 / (m32 - mQ32)) + (#1 / (m32 - mU32))) - ((#3 *
      mU32) / (pow2 (m32 - mU32)))) + ((mQ32 * (((#(-3) * m32) + (#3 * mQ32)) + (#4 * msq2))) / (pow3 (m32 -
      mQ32)))) + (msq2 * ((#3 * ((#1 / (pow2 (m32 - mQ32))) + (#1 / (pow2 (m32 - mU32))))) + ((#4 * mU32) /
      (pow3 (m32 - mU32)))))) + ((#4 * (pow4 mQ3)) / (pow3 ((- m32) + mQ32)))) + ((#4 * (pow4 mU3)) / (pow3
      ((- m32) + mU32))))) + (((((((((((#(-878) * (mQ32 + mU32)) * (pow14 m3)) + (#262 * (pow16 m3))) -
      ((((pow4 m3) * (pow4 mQ3)) * (pow4 mU3)) * ((((#452 * mQ32) * mU32) + (pow4 mQ3)) + (pow4 mU3)))) +
      ((pow12 m3) * ((((#2972 * mQ32) * mU32) + (#885 * (pow4 mQ3))) + (#885 * (pow4 mU3))))) + ((((#144 *
      m32) * (mQ32 + mU32)) * (pow6 mQ3)) * (pow6 mU3))) - ((#36 * (pow8 mQ3)) * (pow8 mU3))) + ((pow8 m3) *
      ((((((#2404 * (pow4 mQ3)) * (pow4 mU3)) + ((#1004 * mU32) * (pow6 mQ3))) + ((#1004 * mQ32) * (pow6
      mU3))) + (#49 * (pow8 mQ3))) + (#49 * (pow8 mU3))))) - ((#2 * (pow6 m3)) * (((((#184 * (pow4 mU3)) *
      (pow6 mQ3)) + ((#184 * (pow4 mQ3)) * (pow6 mU3))) + ((#79 * mU32) * (pow8 mQ3))) + ((#79 * mQ32) *
      (pow8 mU3))))) - ((#4 * (((((#733 * mU32) * (pow4 mQ3)) + ((#733 * mQ32) * (pow4 mU3))) + (#80 * (pow6
      mQ3))) + (#80 * (pow6 mU3)))) * (power10 m3))) / ((pow4 (m32 - mQ32)) * (pow4 (m32 - mU32))))))) +
      (((#2 * (Li2 (#1 - (m32 / mQ32)))) * ((((((((#128 * (pow12 m3)) - ((mU32 * (pow4 mQ3)) * ((((mU32 *
      (pow4 mQ3)) + ((#19 * mQ32) * (pow4 mU3))) + (#3 * (pow6 mQ3))) - (#23 * (pow6 mU3))))) + ((pow6 m3) *
      (((((#(-251) * mU32) * (pow4 mQ3)) - ((#1025 * mQ32) * (pow4 mU3))) + (#9 * (pow6 mQ3))) - (#13 * (pow6
      mU3))))) + (((((#902 * mQ32) * mU32) + (#98 * (pow4 mQ3))) + (#280 * (pow4 mU3))) * (pow8 m3))) +
      ((pow4 m3) * ((((((#417 * (pow4 mQ3)) * (pow4 mU3)) - ((#151 * mU32) * (pow6 mQ3))) + ((#391 * mQ32) *
      (pow6 mU3))) + (#20 * (pow8 mQ3))) - (#37 * (pow8 mU3))))) - ((#2 * ((#147 * mQ32) + (#173 * mU32))) *
      (power10 m3))) + (m32 * ((((((#41 * (pow4 mU3)) * (pow6 mQ3)) - ((#167 * (pow4 mQ3)) * (pow6 mU3))) +
      ((#41 * mU32) * (pow8 mQ3))) - ((#34 * mQ32) * (pow8 mU3))) - (#9 * (power10 mQ3))))) / (pow2 (m32 -
      mQ32)))) / ((mQ32 - mU32) * (pow3 (m32 - mU32))))) + (((#2 * (Li2 (#1 - (m32 / mU32)))) *
      (((((((((((#(-128) * (pow12 m3)) + ((pow6 m3) * (((((#1025 * mU32) * (pow4 mQ3)) + ((#251 * mQ32) *
      (pow4 mU3))) + (#13 * (pow6 mQ3))) - (#9 * (pow6 mU3))))) + ((#19 * (pow6 mQ3)) * (pow6 mU3))) - ((#2 *
      ((((#451 * mQ32) * mU32) + (#140 * (pow4 mQ3))) + (#49 * (pow4 mU3)))) * (pow8 m3))) - ((#23 * (pow4
      mU3)) * (pow8 mQ3))) + ((pow4 m3) * ((((((#(-417) * (pow4 mQ3)) * (pow4 mU3)) - ((#391 * mU32) * (pow6
      mQ3))) + ((#151 * mQ32) * (pow6 mU3))) + (#37 * (pow8 mQ3))) - (#20 * (pow8 mU3))))) + ((pow4 mQ3) *
      (pow8 mU3))) + ((m32 * mU32) * ((((((#(-41) * (pow4 mQ3)) * (pow4 mU3)) + ((#167 * mU32) * (pow6 mQ3)))
      - ((#41 * mQ32) * (pow6 mU3))) + (#34 * (pow8 mQ3))) + (#9 * (pow8 mU3))))) + (((#346 * mQ32) + (#294 *
      mU32)) * (power10 m3))) + ((#3 * mQ32) * (power10 mU3))) / (pow2 (m32 - mU32)))) / ((mQ32 - mU32) *
      (pow3 (m32 - mQ32))))) + (((#2 * logm3Q3) * (((- ((m32 - mU32) * (((((((#864 * (pow12 m3)) + ((#48 *
      (pow6 mQ3)) * (pow6 mU3))) + ((((#3 * m32) * mQ32) * mU32) * ((((((#5 * ((#2 * msq2) - (#23 * mU32))) *
      (pow4 mQ3)) - ((#115 * mQ32) * (pow4 mU3))) + ((#10 * msq2) * (pow4 mU3))) + (pow6 mQ3)) + (pow6
      mU3)))) - ((#9 * (pow6 m3)) * (((((((#30 * msq2) + (#317 * mU32)) * (pow4 mQ3)) + ((#30 * msq2) * (pow4
      mU3))) + (mQ32 * (((#(-20) * msq2) * mU32) + (#317 * (pow4 mU3))))) + (#39 * (pow6 mQ3))) + (#39 *
      (pow6 mU3))))) + ((#4 * (((((#60 * msq2) * mU32) + ((#2 * mQ32) * ((#30 * msq2) + (#511 * mU32)))) +
      (#365 * (pow4 mQ3))) + (#365 * (pow4 mU3)))) * (pow8 m3))) + ((pow4 m3) * ((((((pow4 mQ3) * (((#(-90) *
      msq2) * mU32) + (#1894 * (pow4 mU3)))) + (((#90 * msq2) + (#572 * mU32)) * (pow6 mQ3))) + ((#9 * ((#10
      * msq2) + mU32)) * (pow6 mU3))) + (mQ32 * (((#(-90) * msq2) * (pow4 mU3)) + (#572 * (pow6 mU3))))) +
      (#9 * (pow8 mQ3))))) - ((#2 * (((#971 * mQ32) + (#90 * msq2)) + (#971 * mU32))) * (power10 m3))))) +
      (((#10 * (m32 - mU32)) * logmqQ3) * (((((((((((((#(-4) * (pow12 m3)) + (((#42 * mU32) * (pow4 mQ3)) *
      (pow6 m3))) + (((#42 * mQ32) * (pow4 mU3)) * (pow6 m3))) - (((#14 * mU32) * (pow4 m3)) * (pow6 mQ3))) +
      ((#2 * (pow6 m3)) * (pow6 mQ3))) - (((#14 * mQ32) * (pow4 m3)) * (pow6 mU3))) + ((#2 * (pow6 m3)) *
      (pow6 mU3))) - (((#84 * mQ32) * mU32) * (pow8 m3))) - ((#6 * (pow4 mQ3)) * (pow8 m3))) - ((#6 * (pow4
      mU3)) * (pow8 m3))) + ((#20 * mQ32) * (power10 m3))) + ((#20 * mU32) * (power10 m3))) + ((#3 * (m32 -
      msq2)) * ((((((- (((mQ32 * msq2) * mU32) * ((pow4 mQ3) + (pow4 mU3)))) + ((((((#(-8) * msq2) * mU32) +
      (mQ32 * ((#(-8) * msq2) + (#30 * mU32)))) + (#3 * (pow4 mQ3))) + (#3 * (pow4 mU3))) * (pow6 m3))) -
      ((pow4 m3) * (((((((#(-9) * msq2) + (#15 * mU32)) * (pow4 mQ3)) - ((#9 * msq2) * (pow4 mU3))) + ((#3 *
      mQ32) * (((#2 * msq2) * mU32) + (#5 * (pow4 mU3))))) + (pow6 mQ3)) + (pow6 mU3)))) + (m32 * ((((((#3 *
      msq2) * mU32) * (pow4 mQ3)) + (((#(-3) * msq2) + (#5 * mU32)) * (pow6 mQ3))) - ((#3 * msq2) * (pow6
      mU3))) + (mQ32 * (((#3 * msq2) * (pow4 mU3)) + (#5 * (pow6 mU3))))))) + ((((#(-8) * mQ32) + (#6 *
      msq2)) - (#8 * mU32)) * (pow8 m3))) + (#2 * (power10 m3))))))) + (((#2 * logU3Q3) *
      (((((((((((((((((((((((((((((((#604 * mQ32) * mU32) * (pow12 m3)) - ((#204 * mQ32) * (pow14 m3))) -
      ((#180 * mU32) * (pow14 m3))) + (#64 * (pow16 m3))) + ((#234 * (pow12 m3)) * (pow4 mQ3))) + ((#122 *
      (pow12 m3)) * (pow4 mU3))) - (((#239 * (pow4 mU3)) * (pow6 m3)) * (pow6 mQ3))) - (((#13 * (pow4 mQ3)) *
      (pow6 m3)) * (pow6 mU3))) - (((#53 * (pow4 m3)) * (pow6 mQ3)) * (pow6 mU3))) + (((#503 * (pow4 mQ3)) *
      (pow4 mU3)) * (pow8 m3))) + (((#401 * mU32) * (pow6 mQ3)) * (pow8 m3))) + (((#13 * mQ32) * (pow6 mU3))
      * (pow8 m3))) + (((#43 * (pow4 m3)) * (pow4 mU3)) * (pow8 mQ3))) - (((#76 * mU32) * (pow6 m3)) * (pow8
      mQ3))) + (((#24 * m32) * (pow6 mU3)) * (pow8 mQ3))) + ((#13 * (pow8 m3)) * (pow8 mQ3))) + (((#61 *
      (pow4 m3)) * (pow4 mQ3)) * (pow8 mU3))) - (((#49 * mQ32) * (pow6 m3)) * (pow8 mU3))) - (((#6 * m32) *
      (pow6 mQ3)) * (pow8 mU3))) + ((#30 * (pow8 m3)) * (pow8 mU3))) - ((#6 * (pow8 mQ3)) * (pow8 mU3))) -
      (((#779 * mU32) * (pow4 mQ3)) * (power10 m3))) - (((#369 * mQ32) * (pow4 mU3)) * (power10 m3))) -
      ((#101 * (pow6 mQ3)) * (power10 m3))) - ((#31 * (pow6 mU3)) * (power10 m3))) + (((#13 * mQ32) * (pow4
      m3)) * (power10 mU3))) - (((#18 * m32) * (pow4 mQ3)) * (power10 mU3))) - ((#7 * (pow6 m3)) * (power10
      mU3))) + ((#6 * (pow6 mQ3)) * (power10 mU3)))) / (mQ32 - mU32)))) / ((pow3 (m32 - mQ32)) * (pow4 (m32 -
      mU32))))) / #18.
Definition yta2_G_1 (Li2 : R -> R) (mQ32 mU32 m32 mQ3 mU3 m3 msq2 msq lmQ3MR : R) : R :=
    let logmqQ3 := nlog (msq2 / mQ32) in
    let logU3Q3 := nlog (mU32 / mQ32) in
    let logm3Q3 := nlog (m32 / mQ32) in
    (((((((((((((- (((#16 * #1) * (((#(-3) * m3) * ((mQ32 + (#10 * msq2)) + mU32)) + (#14 * (pow3 m3)))) /
      ((m32 - mQ32) * (m32 - mU32)))) + ((((#60 * (mQ32 - msq2)) * (Li2 (#1 - (msq2 / mQ32)))) * (((((#8 *
      m3) * (m32 - mQ32)) * (mQ32 - msq2)) * #1) / (mQ32 - mU32))) / (pow3 (m32 - mQ32)))) + ((((#60 * (msq2
      - mU32)) * (Li2 (#1 - (msq2 / mU32)))) * (((((#8 * m3) * (m32 - mU32)) * (msq2 - mU32)) * #1) / ((-
      mQ32) + mU32))) / (pow3 (m32 - mU32)))) + (((#60 * (m32 - msq2)) * (Li2 (#1 - (msq2 / m32)))) * (-
      ((((#8 * m3) * (((mQ32 * (msq2 - (#2 * mU32))) + (msq2 * mU32)) + (m32 * ((mQ32 - (#2 * msq2)) +
      mU32)))) * #1) / ((pow2 (m32 - mQ32)) * (pow2 (m32 - mU32))))))) - (((#20 * logmqQ3) * (((((((#(-24) *
      m3) * mQ32) * msq2) * mU32) * #1) + ((((#24 * msq2) * (mQ32 + mU32)) * #1) * (pow3 m3))) - (((#24 *
      msq2) * #1) * (pow5 m3)))) / ((pow2 (m32 - mQ32)) * (pow2 (m32 - mU32))))) - ((((#2 * (mQ32 - mU32)) *
      (Li2 (#1 - (mU32 / mQ32)))) * (((((((((#(-8) * m3) * mQ32) * mU32) * #1) * (((- (mQ32 * mU32)) + (#3 *
      (pow4 mQ3))) + (#3 * (pow4 mU3)))) - (((#16 * #1) * ((((#7 * mQ32) * mU32) + (#4 * (pow4 mQ3))) + (#4 *
      (pow4 mU3)))) * (pow5 m3))) + (((#8 * #1) * (pow3 m3)) * (((((#7 * mU32) * (pow4 mQ3)) + ((#7 * mQ32) *
      (pow4 mU3))) + (#3 * (pow6 mQ3))) + (#3 * (pow6 mU3))))) + (((#80 * (mQ32 + mU32)) * #1) * (pow7 m3)))
      - ((#40 * #1) * (pow9 m3)))) / ((pow3 (m32 - mQ32)) * (pow3 (m32 - mU32))))) + (((pow2 logU3Q3) * (#1 *
      ((((((#8 * m3) * (mQ32 - mU32)) * (pow2 (m32 - mU32))) * (((((- (mQ32 * mU32)) - ((#5 * m32) * (mQ32 +
      mU32))) + (#5 * (pow4 m3))) + (#3 * (pow4 mQ3))) + (#3 * (pow4 mU3)))) / (pow2 (m32 - mQ32))) - (((#8 *
      (m32 - mU32)) * ((((((((#69 * mQ32) * mU32) + (pow4 mQ3)) - (#86 * (pow4 mU3))) * (pow5 m3)) + ((m3 *
      mU32) * (((((((#10 * mU32) * (pow4 mQ3)) + ((#30 * mU32) * (pow4 msq))) - ((#60 * msq2) * (pow4 mU3)))
      + (mQ32 * ((((#60 * msq2) * mU32) - (#30 * (pow4 msq))) + (#4 * (pow4 mU3))))) - (#3 * (pow6 mQ3))) -
      (#27 * (pow6 mU3))))) + ((pow3 m3) * (((((((#(-11) * mU32) * (pow4 mQ3)) - ((#30 * mU32) * (pow4 msq)))
      + (mQ32 * ((((#(-60) * msq2) * mU32) + (#30 * (pow4 msq))) - (#59 * (pow4 mU3))))) + ((#60 * msq2) *
      (pow4 mU3))) + (#3 * (pow6 mQ3))) + (#99 * (pow6 mU3))))) - ((#18 * (mQ32 - mU32)) * (pow7 m3)))) /
      (pow2 (mQ32 - mU32)))))) / (pow4 (m32 - mU32)))) + (((#2 * logU3Q3) * (((#10 * logmqQ3) * (((((#4 * m3)
      * (m32 - mU32)) * #1) * ((((m32 * mU32) + ((#12 * msq2) * mU32)) - (#6 * (pow4 msq))) - (pow4 mU3))) /
      ((- mQ32) + mU32))) + ((((#8 * (m32 - mU32)) * #1) * ((((- ((mU32 * (((#53 * mQ32) + (#30 * msq2)) +
      (#61 * mU32))) * (pow3 m3))) + ((m3 * mU32) * (((mQ32 * ((#30 * msq2) + (#53 * mU32))) + (#3 * (pow4
      mQ3))) + (#3 * (pow4 mU3))))) + (((#(-16) * mQ32) + (#55 * mU32)) * (pow5 m3))) + (#16 * (pow7 m3)))) /
      ((m32 - mQ32) * (mQ32 - mU32))))) / (pow3 (m32 - mU32)))) - ((#4 * lmQ3MR) * (((((#8 * #1) * (pow3 m3))
      / ((m32 - mQ32) * (m32 - mU32))) - ((logU3Q3 * (((- (((#200 * #1) * (pow3 m3)) * (pow4 mU3))) + (((#136
      * m3) * #1) * (pow6 mU3))) + ((#64 * #1) * (pow7 m3)))) / (((- mQ32) + mU32) * (pow3 (m32 - mU32))))) -
      ((logm3Q3 * ((((((#(-192) * #1) * (pow11 m3)) - ((((#208 * #1) * (pow3 m3)) * (pow4 mQ3)) * (pow4
      mU3))) + (((((#408 * mQ32) * mU32) * (mQ32 + mU32)) * #1) * (pow5 m3))) - (((#200 * #1) * ((((#4 *
      mQ32) * mU32) + (pow4 mQ3)) + (pow4 mU3))) * (pow7 m3))) + (((#392 * (mQ32 + mU32)) * #1) * (pow9
      m3)))) / ((pow3 (m32 - mQ32)) * (pow3 (m32 - mU32))))))) + ((#2 * (pow2 logm3Q3)) * ((((#8 * m3) * #1)
      * (((((#(-15) * (m32 - mQ32)) * (m32 - msq2)) * (m32 - mU32)) * (((mQ32 * (msq2 - (#2 * mU32))) + (msq2
      * mU32)) + (m32 * ((mQ32 - (#2 * msq2)) + mU32)))) - (m32 * ((((((((#(-142) * m32) * mQ32) * mU32) *
      (mQ32 + mU32)) + ((#87 * (pow4 mQ3)) * (pow4 mU3))) + ((pow4 m3) * ((((#220 * mQ32) * mU32) + (#57 *
      (pow4 mQ3))) + (#57 * (pow4 mU3))))) - ((#82 * (mQ32 + mU32)) * (pow6 m3))) + (#27 * (pow8 m3)))))) /
      ((pow3 (m32 - mQ32)) * (pow3 (m32 - mU32)))))) + (((#2 * (Li2 (#1 - (m32 / mQ32)))) * ((((#(-8) * m3) *
      (m32 - mU32)) * #1) * (((((m32 * (mQ32 - (#37 * mU32))) - ((#7 * mQ32) * mU32)) + (#18 * (pow4 m3))) +
      (#3 * (pow4 mQ3))) + (#22 * (pow4 mU3))))) / ((mQ32 - mU32) * (pow3 (m32 - mU32))))) + (((#2 * (Li2 (#1
      - (m32 / mU32)))) * ((((#8 * m3) * (m32 - mQ32)) * #1) * ((((((#(-7) * mQ32) * mU32) + (m32 * ((#(-37)
      * mQ32) + mU32))) + (#18 * (pow4 m3))) + (#22 * (pow4 mQ3))) + (#3 * (pow4 mU3))))) / ((mQ32 - mU32) *
      (pow3 (m32 - mQ32))))) + (((#2 * logm3Q3) * (((((((#8 * (m32 - mQ32)) * #1) * (pow2 (m32 - mU32))) *
      (pow3 m3)) * ((((((#3 * mU32) * ((#10 * msq2) + mU32)) - ((#15 * m32) * (((#5 * mQ32) + (#4 * msq2)) +
      (#5 * mU32)))) + (mQ32 * ((#30 * msq2) + (#59 * mU32)))) + (#85 * (pow4 m3))) + (#3 * (pow4 mQ3)))) +
      (((#10 * (m32 - mU32)) * logmqQ3) * (- (((((#4 * m3) * (m32 - mQ32)) * (m32 - mU32)) * #1) * (((((-
      (((mQ32 - (#12 * msq2)) + mU32) * (pow4 m3))) + (m32 * ((mQ32 * mU32) - (#12 * (pow4 msq))))) + ((#6 *
      mU32) * (pow4 msq))) + ((#6 * mQ32) * (((#(-2) * msq2) * mU32) + (pow4 msq)))) + (pow6 m3)))))) + (((#2
      * logU3Q3) * (- ((((#2 * (m32 - mQ32)) * (m32 - mU32)) * #1) * ((((((#68 * (pow11 m3)) + (((#12 * m3) *
      (pow4 mQ3)) * (pow6 mU3))) + ((pow5 m3) * ((((#(-184) * mU32) * (pow4 mQ3)) - ((#215 * mQ32) * (pow4
      mU3))) + (#3 * (pow6 mU3))))) + ((pow3 m3) * (((#105 * (pow4 mQ3)) * (pow4 mU3)) - ((#17 * mQ32) *
      (pow6 mU3))))) + (((((#353 * mQ32) * mU32) + (#75 * (pow4 mQ3))) + (#120 * (pow4 mU3))) * (pow7 m3))) -
      (((#137 * mQ32) + (#183 * mU32)) * (pow9 m3)))))) / (mQ32 - mU32)))) / ((pow3 (m32 - mQ32)) * (pow4
      (m32 - mU32))))) / #18.
Definition yta2_G_2 (Li2 : R -> R) (mQ32 mU32 m32 mQ3 mU3 m3 msq2 msq lmQ3MR : R) : R :=
    let logmqQ3 := nlog (msq2 / mQ32) in
    let logU3Q3 := nlog (mU32 / mQ32) in
    let logm3Q3 := nlog (m32 / mQ32) in
    (((((pow2 logU3Q3) * (((((#128 * m32) * (pow2 (m32 - mU32))) * (#1 * #1)) * (pow4 mU3)) / (pow2 (mQ32 -
      mU32)))) / (pow4 (m32 - mU32))) + ((#2 * (pow2 logm3Q3)) * (((#64 * (#1 * #1)) * (pow6 m3)) / ((pow2
      (m32 - mQ32)) * (pow2 (m32 - mU32)))))) + (((#2 * logm3Q3) * (((#2 * logU3Q3) * (((((#64 * mU32) *
      (pow2 (m32 - mQ32))) * (pow2 (m32 - mU32))) * (#1 * #1)) * (pow4 m3))) / (mQ32 - mU32))) / ((pow3 (m32
      - mQ32)) * (pow4 (m32 - mU32))))) / #18.
Lemma yta2_G_poly (Li2 : R -> R) (mQ32 mU32 m32 mQ3 mU3 m3 msq2 msq Xt lmQ3MR : R) : yta2_G Li2 mQ32 mU32 m32 mQ3 mU3 m3 msq2 msq Xt lmQ3MR = (yta2_G_0 Li2 mQ32 mU32 m32 mQ3 mU3 m3 msq2 msq lmQ3MR * Xt^0 + yta2_G_1 Li2 mQ32 mU32 m32 mQ3 mU3 m3 msq2 msq lmQ3MR * Xt^1 + yta2_G_2 Li2 mQ32 mU32 m32 mQ3 mU3 m3 msq2 msq lmQ3MR * Xt^2)%R.
Proof. unfold yta2_G, yta2_G_0, yta2_G_1, yta2_G_2. rewrite ?(p2 Xt), ?(p3 Xt), ?(p4 Xt), ?(p5 Xt). unR. unfold Rdiv. first [ring|unfold pow5, pow4, pow3, pow2; unR; ring]. Qed.

Definition yta2_QU_0 (Li2 : R -> R) (mQ32 m32 mQ3 m3 msq2 msq lmQ3MR : R) : R :=
    let logmqQ3 := nlog (msq2 / mQ32) in
    let logm3Q3 := nlog (m32 / mQ32) in
    ((((((((((((((#4 * (pow2 lmQ3MR)) - (#60 * (pow2 logmqQ3))) + ((((#32 * (#8 * m3)) * logm3Q3) * (pow3
      m3)) / ((m32 - mQ32) * mQ32))) + ((((#60 * (mQ32 - msq2)) * (Li2 (#1 - (msq2 / mQ32)))) * ((((#(-3) *
      m32) * (mQ32 - msq2)) + (mQ32 * (mQ32 + msq2))) - (#2 * (pow4 m3)))) / (pow3 (m32 - mQ32)))) - ((((#120
      * (m32 - msq2)) * (Li2 (#1 - (msq2 / m32)))) * (((mQ32 * msq2) + (m32 * ((#(-5) * mQ32) + (#3 *
      msq2)))) + (pow4 m3))) / (pow3 (m32 - mQ32)))) + ((((((#18 * m32) * (mQ32 - (#20 * msq2))) - ((#120 *
      mQ32) * msq2)) + (#291 * (pow4 m3))) - (#181 * (pow4 mQ3))) / (pow2 (m32 - mQ32)))) - (((#40 * logmqQ3)
      * (((((#3 * mQ32) * msq2) + (m32 * ((#(-11) * mQ32) + (#9 * msq2)))) + (#6 * (pow4 m3))) + (#5 * (pow4
      mQ3)))) / (pow2 (m32 - mQ32)))) + ((((#60 * (mQ32 - msq2)) * (Li2 (#1 - (msq2 / mQ32)))) * (((- ((#2 *
      mQ32) * (pow4 m3))) + ((mQ32 + msq2) * (pow4 mQ3))) - ((#3 * m32) * ((- (mQ32 * msq2)) + (pow4 mQ3)))))
      / (mQ32 * (pow3 (m32 - mQ32))))) - (((#16 * m3) * ((- ((#32 * mQ32) * (pow3 m3))) + ((#32 * m3) * (pow4
      mQ3)))) / (pow2 ((- (m32 * mQ3)) + (pow3 mQ3))))) + (((#4 * (Li2 (#1 - (m32 / mQ32)))) * (((((#13 *
      mQ32) * (pow4 m3)) - ((#36 * m32) * (pow4 mQ3))) - (#16 * (pow6 m3))) + (#15 * (pow6 mQ3)))) / (pow2
      ((- (m32 * mQ3)) + (pow3 mQ3))))) + (((#4 * (Li2 (#1 - (m32 / mQ32)))) * ((((- ((#51 * mQ32) * (pow4
      m3))) - ((#4 * m32) * (pow4 mQ3))) + (#16 * (pow6 m3))) + (#15 * (pow6 mQ3)))) / (pow2 ((- (m32 * mQ3))
      + (pow3 mQ3))))) - (((#8 * lmQ3MR) * (((m32 - mQ32) * (((((#(-10) * logmqQ3) * (pow2 ((- (m32 * mQ3)) +
      (pow3 mQ3)))) - ((#188 * mQ32) * (pow4 m3))) + ((#293 * m32) * (pow4 mQ3))) - (#101 * (pow6 mQ3)))) +
      ((mQ32 * logm3Q3) * ((((- ((#57 * mQ32) * (pow4 m3))) - ((#36 * m32) * (pow4 mQ3))) + (#77 * (pow6
      m3))) + (#12 * (pow6 mQ3)))))) / (mQ32 * (pow3 ((- m32) + mQ32))))) + (((#8 * logm3Q3) * (((((((mQ32 *
      ((#(-291) * mQ32) - (#45 * msq2))) * (pow4 m3)) + ((#152 * mQ32) * (pow6 m3))) - (((#5 * mQ32) *
      logmqQ3) * ((((- ((mQ32 - (#6 * msq2)) * (pow4 m3))) + ((#9 * m32) * (((#2 * mQ32) * msq2) - (pow4
      msq)))) - ((#3 * mQ32) * (pow4 msq))) + (pow6 m3)))) + ((#15 * m32) * ((- (msq2 * (pow4 mQ3))) + (#9 *
      (pow6 mQ3))))) + (#32 * (pow8 m3))) - (#12 * (pow8 mQ3)))) / (mQ32 * (pow3 ((- m32) + mQ32))))) + (((#4
      * (pow2 logm3Q3)) * ((((((pow4 m3) * ((((#(-60) * mQ32) * msq2) + (#94 * (pow4 mQ3))) + (#45 * (pow4
      msq)))) + (((#(-264) * mQ32) - (#30 * msq2)) * (pow6 m3))) + ((#6 * m32) * ((((#15 * msq2) * (pow4
      mQ3)) - ((#5 * mQ32) * (pow4 msq))) + (#12 * (pow6 mQ3))))) + (#116 * (pow8 m3))) - (#3 * (((#5 * (pow4
      mQ3)) * (pow4 msq)) + (#6 * (pow8 mQ3)))))) / (pow4 (m32 - mQ32)))) / #18.
Definition yta2_QU_1 (Li2 : R -> R) (mQ32 m32 mQ3 m3 msq2 msq lmQ3MR : R) : R :=
    let logmqQ3 := nlog (msq2 / mQ32) in
    let logm3Q3 := nlog (m32 / mQ32) in
    (((((((((((((((((#128 * m3) * #1) * (m32 - mQ32)) / (pow2 (m32 - mQ32))) + ((((((#480 * m3) * msq2) * ((-
      mQ32) + msq2)) * #1) * logmqQ3) / (pow2 ((- (m32 * mQ3)) + (pow3 mQ3))))) + ((((#32 * (- (#9 * #1))) *
      logm3Q3) * (pow3 m3)) / ((m32 - mQ32) * mQ32))) - (((#32 * #1) * (((#(-3) * m3) * (mQ32 + (#5 * msq2)))
      + (#7 * (pow3 m3)))) / (pow2 (m32 - mQ32)))) + ((((#60 * (mQ32 - msq2)) * (Li2 (#1 - (msq2 / mQ32)))) *
      (((((#2 * m3) * (m32 - mQ32)) * (mQ32 - msq2)) * #1) / mQ32)) / (pow3 (m32 - mQ32)))) - ((((#120 * (m32
      - msq2)) * (Li2 (#1 - (msq2 / m32)))) * (((#8 * m3) * (mQ32 - msq2)) * #1)) / (pow3 (m32 - mQ32)))) -
      (((#40 * logmqQ3) * (- (((#12 * m3) * msq2) * #1))) / (pow2 (m32 - mQ32)))) + ((((#60 * (mQ32 - msq2))
      * (Li2 (#1 - (msq2 / mQ32)))) * (((((#2 * m3) * mQ32) * (mQ32 - (#9 * msq2))) * #1) + (((#2 * ((#7 *
      mQ32) + msq2)) * #1) * (pow3 m3)))) / (mQ32 * (pow3 (m32 - mQ32))))) - (((#16 * m3) * (((((((#55 * m32)
      * mQ32) * #1) - (((#30 * mQ32) * msq2) * #1)) + ((#16 * #1) * (pow4 m3))) - ((#59 * #1) * (pow4 mQ3)))
      - (((#5 * #1) * logmqQ3) * ((((m32 * mQ32) + ((#12 * mQ32) * msq2)) - (pow4 mQ3)) - (#6 * (pow4
      msq)))))) / (pow2 ((- (m32 * mQ3)) + (pow3 mQ3))))) + (((#4 * (Li2 (#1 - (m32 / mQ32)))) * (((((#(-40)
      * mQ32) * #1) * (pow3 m3)) + (((#22 * m3) * #1) * (pow4 mQ3))) + ((#18 * #1) * (pow5 m3)))) / (pow2 ((-
      (m32 * mQ3)) + (pow3 mQ3))))) + (((#4 * (Li2 (#1 - (m32 / mQ32)))) * (((((#32 * mQ32) * #1) * (pow3
      m3)) - (((#14 * m3) * #1) * (pow4 mQ3))) - ((#18 * #1) * (pow5 m3)))) / (pow2 ((- (m32 * mQ3)) + (pow3
      mQ3))))) - (((#8 * lmQ3MR) * (((m32 - mQ32) * (((((#28 * mQ32) * #1) * (pow3 m3)) - (((#68 * m3) * #1)
      * (pow4 mQ3))) + ((#32 * #1) * (pow5 m3)))) + ((mQ32 * logm3Q3) * ((((#104 * mQ32) * #1) * (pow3 m3)) -
      ((#96 * #1) * (pow5 m3)))))) / (mQ32 * (pow3 ((- m32) + mQ32))))) + (((#8 * logm3Q3) * ((((((((#6 *
      mQ32) * ((#3 * mQ32) + (#20 * msq2))) * #1) * (pow3 m3)) + (((#14 * mQ32) * #1) * (pow5 m3))) - (((#5 *
      mQ32) * logmqQ3) * ((((((#24 * m3) * msq2) * ((- mQ32) + msq2)) * #1) + (((#2 * (mQ32 - (#12 * msq2)))
      * #1) * (pow3 m3))) - ((#2 * #1) * (pow5 m3))))) - (((#12 * m3) * #1) * (pow6 mQ3))) - ((#68 * #1) *
      (pow7 m3)))) / (mQ32 * (pow3 ((- m32) + mQ32))))) + (((#4 * (pow2 logm3Q3)) * ((((((((#(-120) * m3) *
      mQ32) * (mQ32 - msq2)) * msq2) * #1) - (((#12 * #1) * (pow3 m3)) * ((#19 * (pow4 mQ3)) + (#10 * (pow4
      msq))))) + (((#40 * ((#8 * mQ32) + (#3 * msq2))) * #1) * (pow5 m3))) - ((#108 * #1) * (pow7 m3)))) /
      (pow4 (m32 - mQ32)))) / #18.
Definition yta2_QU_2 (Li2 : R -> R) (mQ32 m32 mQ3 m3 msq2 msq lmQ3MR : R) : R :=
    let logmqQ3 := nlog (msq2 / mQ32) in
    let logm3Q3 := nlog (m32 / mQ32) in
    ((((((#128 * m3) * #1) * (m3 * #1)) / (pow2 (m32 - mQ32))) + (((#8 * logm3Q3) * ((mQ32 * (#32 * (#1 *
      #1))) * (pow4 m3))) / (mQ32 * (pow3 ((- m32) + mQ32))))) + (((#4 * (pow2 logm3Q3)) * ((#32 * (#1 * #1))
      * (pow6 m3))) / (pow4 (m32 - mQ32)))) / #18.
Lemma yta2_QU_poly (Li2 : R -> R) (mQ32 m32 mQ3 m3 msq2 msq Xt lmQ3MR : R) : yta2_QU Li2 mQ32 m32 mQ3 m3 msq2 msq Xt lmQ3MR = (yta2_QU_0 Li2 mQ32 m32 mQ3 m3 msq2 msq lmQ3MR * Xt^0 + yta2_QU_1 Li2 mQ32 m32 mQ3 m3 msq2 msq lmQ3MR * Xt^1 + yta2_QU_2 Li2 mQ32 m32 mQ3 m3 msq2 msq lmQ3MR * Xt^2)%R.
Proof. unfold yta2_QU, yta2_QU_0, yta2_QU_1, yta2_QU_2. rewrite ?(p2 Xt), ?(p3 Xt), ?(p4 Xt), ?(p5 Xt). unR. unfold Rdiv. first [ring|unfold pow5, pow4, pow3, pow2; unR; ring]. Qed.

Definition yta2_QM_0 (Li2 : R -> R) (mQ32 mU32 mQ3 mU3 msq2 msq lmQ3MR : R) : R :=
    let logmqQ3 := nlog (msq2 / mQ32) in
    let logU3Q3 := nlog (mU32 / mQ32) in
    let logQ3U3 := - logU3Q3 in
    (((((((((((((((((((((#8064 + (((#384 * (mQ32 + mU32)) * logQ3U3) / (mQ32 - mU32))) + (#192 * (pow2
      lmQ3MR))) - (#2880 * (pow2 logmqQ3))) - (((#288 * mQ3) * (((#(-2) * mQ32) + (#2 * mU32)) + ((mQ32 +
      mU32) * logQ3U3))) / ((- (mQ3 * mU32)) + (pow3 mQ3)))) - ((((#2880 * msq2) * (((#(-2) * mQ32) + (#2 *
      msq2)) + (((#(-3) * mQ32) + msq2) * logmqQ3))) * ((- (mQ3 * mU32)) + (pow3 mQ3))) / (((mQ32 - msq2) *
      (mQ32 - mU32)) * (pow3 mQ3)))) - ((((#2880 * (msq2 - mU32)) * (Li2 (#1 - (msq2 / mU32)))) * ((((#3 *
      mQ32) * (msq2 - mU32)) + (mU32 * (msq2 + mU32))) - (#2 * (pow4 mQ3)))) / (pow3 (mQ32 - mU32)))) +
      ((((#180 * (mQ32 - msq2)) * ((#(-3) * mQ32) - msq2)) * (Li2 (#1 - (msq2 / mQ32)))) / (pow4 mQ3))) +
      ((#32 * ((mQ32 * ((((#(-10) * mQ32) + (#30 * msq2)) + (#3 * mU32)) + ((#3 * mQ32) * logU3Q3))) + ((#30
      * logmqQ3) * (((#2 * mQ32) * msq2) - (pow4 msq))))) / (pow4 mQ3))) + ((#96 * (((((#2 * mQ32) * mU32) -
      (#3 * (pow4 mQ3))) + (logQ3U3 * (((#3 * mQ32) * mU32) + (pow4 mQ3)))) + (pow4 mU3))) / ((- (mQ32 *
      mU32)) + (pow4 mQ3)))) - ((#12 * (((((#240 * msq2) * mU32) + ((#10 * mQ32) * ((#72 * msq2) + (#61 *
      mU32)))) - (#837 * (pow4 mQ3))) + (#19 * (pow4 mU3)))) / (pow2 (mQ32 - mU32)))) - (((#240 * logmqQ3) *
      ((((#18 * ((#2 * msq2) - (#5 * mU32))) * (pow3 mQ3)) + (mQ3 * (((#12 * msq2) * mU32) + (#43 * (pow4
      mU3))))) + (#47 * (pow5 mQ3)))) / (mQ3 * (pow2 (mQ32 - mU32))))) + ((#24 * (((- ((logU3Q3 * (pow3 mQ3))
      * ((((#(-34) * mQ32) * mU32) + (#13 * (pow4 mQ3))) + (#17 * (pow4 mU3))))) + ((mQ3 * (mQ32 - mU32)) *
      (((- (mQ32 * ((#120 * msq2) + (#137 * mU32)))) + (#129 * (pow4 mQ3))) + (#12 * (((#10 * msq2) * mU32) +
      (pow4 mU3)))))) - (((#10 * (mQ32 - mU32)) * logmqQ3) * (((((#(-12) * mQ3) * msq2) * mU32) + (((#12 *
      msq2) - mU32) * (pow3 mQ3))) + (pow5 mQ3))))) / ((pow2 (mQ32 - mU32)) * (pow3 mQ3)))) - (((#960 * msq2)
      * (((((#(-10) * mQ32) * msq2) + (#7 * (pow4 mQ3))) + (#3 * (pow4 msq))) + (logmqQ3 * ((((#(-3) * mQ32)
      * msq2) + (#6 * (pow4 mQ3))) + (pow4 msq))))) / ((- (msq2 * (pow4 mQ3))) + (pow6 mQ3)))) + ((#48 *
      (((((#10 * ((#3 * mQ32) - (#3 * mU32))) * logmqQ3) * (pow2 ((- (mQ3 * mU32)) + (pow3 mQ3)))) - ((pow2
      (mQ32 - mU32)) * ((((#6 * mU32) * ((#10 * msq2) + mU32)) - ((#3 * mQ32) * ((#20 * msq2) + (#221 *
      mU32)))) + (#1189 * (pow4 mQ3))))) + ((mQ32 * logU3Q3) * ((((- ((#33 * mU32) * (pow4 mQ3))) + (mQ32 *
      (#53 * (pow4 mU3)))) + (#11 * (pow6 mQ3))) - (#15 * (pow6 mU3)))))) / (mQ32 * (pow3 (mQ32 - mU32))))) +
      (((#6 * (Li2 (#1 - (mU32 / mQ32)))) * (((((#31 * mU32) * (pow4 mQ3)) - ((#19 * mQ32) * (pow4 mU3))) +
      (#119 * (pow6 mQ3))) - (#3 * (pow6 mU3)))) / ((- (mU32 * (pow4 mQ3))) + (pow6 mQ3)))) - (((#32 *
      lmQ3MR) * ((((#120 * logmqQ3) * (pow3 (mQ32 - mU32))) + ((mQ32 - mU32) * ((((#(-2044) * mQ32) * mU32) +
      (#983 * (pow4 mQ3))) + (#1037 * (pow4 mU3))))) + ((#6 * logU3Q3) * ((((- ((#56 * mU32) * (pow4 mQ3))) -
      ((#5 * mQ32) * (pow4 mU3))) + (#34 * (pow6 mQ3))) + (#23 * (pow6 mU3)))))) / (pow3 (mQ32 - mU32)))) +
      (((#24 * logU3Q3) * (((((- ((#3 * (pow3 mQ3)) * (((#120 * msq2) * mU32) + (#59 * (pow4 mU3))))) -
      ((#479 * mU32) * (pow5 mQ3))) - (((#40 * mQ3) * logmqQ3) * (((((#2 * ((#3 * msq2) + mU32)) * (pow4
      mQ3)) - ((#3 * mU32) * (pow4 msq))) - ((#3 * mQ32) * ((((#(-6) * msq2) * mU32) + (#3 * (pow4 msq))) +
      (pow4 mU3)))) + (pow6 mU3)))) + (mQ3 * (((#(-120) * msq2) * (pow4 mU3)) + (#527 * (pow6 mU3))))) +
      (#209 * (pow7 mQ3)))) / (mQ3 * (pow3 (mQ32 - mU32))))) + ((#4 * (((((((#1440 * mQ32) * mU32) * (pow4
      msq)) - ((#720 * (pow4 msq)) * (pow4 mU3))) + ((pow4 mQ3) * ((#(-720) * (pow4 msq)) + (#391 * (pow4
      mU3))))) + ((#(-782) * mU32) * (pow6 mQ3))) + (#487 * (pow8 mQ3)))) / ((pow2 (mQ32 - mU32)) * (pow4
      mQ3)))) + (((#6 * (Li2 (#1 - (mQ32 / mU32)))) * ((((((#318 * (pow4 mQ3)) * (pow4 mU3)) + ((#1544 *
      mU32) * (pow6 mQ3))) + ((#16 * mQ32) * (pow6 mU3))) - (#2649 * (pow8 mQ3))) + (#3 * (pow8 mU3)))) /
      ((pow2 (mQ32 - mU32)) * (pow4 mQ3)))) - (((#180 * (Li2 (#1 - (msq2 / mQ32)))) * ((((((((((#90 * msq2) *
      mU32) - (#47 * (pow4 msq))) + (#39 * (pow4 mU3))) * (pow6 mQ3)) + ((pow4 mQ3) * ((((#(-19) * mU32) *
      (pow4 msq)) + ((#6 * msq2) * (pow4 mU3))) - (#13 * (pow6 mU3))))) - ((pow4 msq) * (pow6 mU3))) + (mQ32
      * (((#3 * (pow4 msq)) * (pow4 mU3)) - ((#2 * msq2) * (pow6 mU3))))) + ((#17 * ((#2 * msq2) - (#7 *
      mU32))) * (pow8 mQ3))) + (#29 * (power10 mQ3)))) / ((pow3 (mQ32 - mU32)) * (pow4 mQ3)))) - (((#3 *
      (pow2 logU3Q3)) * (((((((#2745 * (pow12 mQ3)) - (#3 * (pow12 mU3))) - ((#4 * (pow6 mQ3)) * ((((#240 *
      mU32) * (pow4 msq)) - ((#720 * msq2) * (pow4 mU3))) + (#215 * (pow6 mU3))))) + (((((#(-1920) * msq2) *
      mU32) + (#1440 * (pow4 msq))) + (#3691 * (pow4 mU3))) * (pow8 mQ3))) - ((pow4 mQ3) * (((#480 * (pow4
      msq)) * (pow4 mU3)) + (#257 * (pow8 mU3))))) - ((#2 * ((#480 * msq2) + (#2621 * mU32))) * (power10
      mQ3))) - ((#10 * mQ32) * (power10 mU3)))) / (pow4 ((- (mQ3 * mU32)) + (pow3 mQ3))))) / #864.
Definition yta2_QM_1 (Li2 : R -> R) (mQ32 mU32 mQ3 mU3 msq2 msq lmQ3MR : R) : R :=
    let logmqQ3 := nlog (msq2 / mQ32) in
    let logU3Q3 := nlog (mU32 / mQ32) in
    let logQ3U3 := - logU3Q3 in
    ((((((((((((((((((#384 * ((#2 * mQ3) * #1)) * logQ3U3) / (mQ32 - mU32)) - (((#288 * (- (#2 * #1))) *
      (((#(-2) * mQ32) + (#2 * mU32)) + ((mQ32 + mU32) * logQ3U3))) / ((- (mQ3 * mU32)) + (pow3 mQ3)))) -
      ((((#2880 * msq2) * (((#(-2) * mQ32) + (#2 * msq2)) + (((#(-3) * mQ32) + msq2) * logmqQ3))) * ((- ((#2
      * mQ32) * #1)) + ((#2 * msq2) * #1))) / (((mQ32 - msq2) * (mQ32 - mU32)) * (pow3 mQ3)))) - ((((#2880 *
      (msq2 - mU32)) * (Li2 (#1 - (msq2 / mU32)))) * (((#8 * mQ3) * (msq2 - mU32)) * #1)) / (pow3 (mQ32 -
      mU32)))) + ((((#180 * (mQ32 - msq2)) * (- ((((#8 * mQ3) * (mQ32 - msq2)) * #1) / (mQ32 - mU32)))) *
      (Li2 (#1 - (msq2 / mQ32)))) / (pow4 mQ3))) - (((#192 * #1) * (((mQ32 * ((#90 * msq2) - (#58 * mU32))) +
      ((#3 * mU32) * ((#10 * msq2) + mU32))) + (#23 * (pow4 mQ3)))) / (mQ3 * (pow2 (mQ32 - mU32))))) -
      (((#240 * logmqQ3) * ((((#72 * mQ32) * msq2) * #1) + (((#24 * msq2) * mU32) * #1))) / (mQ3 * (pow2
      (mQ32 - mU32))))) + ((#24 * (((- ((logU3Q3 * (pow3 mQ3)) * ((((#8 * mQ3) * mU32) * #1) - ((#24 * #1) *
      (pow3 mQ3))))) + ((mQ3 * (mQ32 - mU32)) * ((((#24 * mQ3) * ((#10 * msq2) + mU32)) * #1) - ((#104 * #1)
      * (pow3 mQ3))))) - (((#10 * (mQ32 - mU32)) * logmqQ3) * ((- (((#48 * mQ32) * msq2) * #1)) + ((#24 * #1)
      * (pow4 msq)))))) / ((pow2 (mQ32 - mU32)) * (pow3 mQ3)))) + ((#48 * (((((#10 * (- ((#8 * mQ3) * #1))) *
      logmqQ3) * (pow2 ((- (mQ3 * mU32)) + (pow3 mQ3)))) - ((pow2 (mQ32 - mU32)) * ((((#48 * mQ3) * ((#10 *
      msq2) + mU32)) * #1) - ((#1312 * #1) * (pow3 mQ3))))) + ((mQ32 * logU3Q3) * (((((#144 * mU32) * #1) *
      (pow3 mQ3)) - (((#88 * mQ3) * #1) * (pow4 mU3))) + ((#8 * #1) * (pow5 mQ3)))))) / (mQ32 * (pow3 (mQ32 -
      mU32))))) + (((#6 * (Li2 (#1 - (mU32 / mQ32)))) * (((((#80 * mU32) * #1) * (pow3 mQ3)) - (((#24 * mQ3)
      * #1) * (pow4 mU3))) + ((#456 * #1) * (pow5 mQ3)))) / ((- (mU32 * (pow4 mQ3))) + (pow6 mQ3)))) - (((#32
      * lmQ3MR) * (((mQ32 - mU32) * ((- (((#1224 * mQ3) * mU32) * #1)) + ((#1176 * #1) * (pow3 mQ3)))) + ((#6
      * logU3Q3) * (((((#64 * mU32) * #1) * (pow3 mQ3)) - (((#136 * mQ3) * #1) * (pow4 mU3))) + ((#64 * #1) *
      (pow5 mQ3)))))) / (pow3 (mQ32 - mU32)))) + (((#24 * logU3Q3) * ((((((((#(-96) * mQ32) * mU32) * ((#10 *
      msq2) + (#19 * mU32))) * #1) + (((#1544 * mU32) * #1) * (pow4 mQ3))) + ((#512 * #1) * (pow6 mQ3))) +
      ((#24 * #1) * (pow6 mU3))) - (((#40 * mQ3) * logmqQ3) * ((((#4 * mU32) * #1) * (pow3 mQ3)) - (((#4 *
      mQ3) * #1) * ((((#(-12) * msq2) * mU32) + (#6 * (pow4 msq))) + (pow4 mU3))))))) / (mQ3 * (pow3 (mQ32 -
      mU32))))) + ((#4 * (((((((#(-2880) * msq2) * (msq2 + (#2 * mU32))) * #1) * (pow3 mQ3)) + ((((#2880 *
      mQ3) * mU32) * #1) * (pow4 msq))) + (((#480 * ((#12 * msq2) - (#5 * mU32))) * #1) * (pow5 mQ3))) +
      ((#2784 * #1) * (pow7 mQ3)))) / ((pow2 (mQ32 - mU32)) * (pow4 mQ3)))) + (((#6 * (Li2 (#1 - (mQ32 /
      mU32)))) * ((((((#(-104) * #1) * (pow3 mQ3)) * (pow4 mU3)) - (((#2168 * mU32) * #1) * (pow5 mQ3))) +
      (((#24 * mQ3) * #1) * (pow6 mU3))) + ((#2248 * #1) * (pow7 mQ3)))) / ((pow2 (mQ32 - mU32)) * (pow4
      mQ3)))) - (((#180 * (Li2 (#1 - (msq2 / mQ32)))) * (((((((((#16 * msq2) * mU32) * (msq2 + mU32)) * #1) *
      (pow3 mQ3)) - ((((#8 * mQ3) * #1) * (pow4 msq)) * (pow4 mU3))) - (((#8 * #1) * ((((#(-28) * msq2) *
      mU32) + (#17 * (pow4 msq))) + (#17 * (pow4 mU3)))) * (pow5 mQ3))) + (((#16 * (msq2 + mU32)) * #1) *
      (pow7 mQ3))) - ((#8 * #1) * (pow9 mQ3)))) / ((pow3 (mQ32 - mU32)) * (pow4 mQ3)))) - (((#3 * (pow2
      logU3Q3)) * (((((((#(-2248) * #1) * (pow11 mQ3)) + ((((#240 * mU32) * #1) * ((((#32 * msq2) * mU32) -
      (#16 * (pow4 msq))) + (#15 * (pow4 mU3)))) * (pow5 mQ3))) + (((#16 * #1) * ((((#(-480) * msq2) * mU32)
      + (#240 * (pow4 msq))) - (#677 * (pow4 mU3)))) * (pow7 mQ3))) + (((#152 * #1) * (pow3 mQ3)) * (pow8
      mU3))) + (((#8840 * mU32) * #1) * (pow9 mQ3))) - (((#24 * mQ3) * #1) * (power10 mU3)))) / (pow4 ((-
      (mQ3 * mU32)) + (pow3 mQ3))))) / #864.
Definition yta2_QM_2 (Li2 : R -> R) (mQ32 mU32 mQ3 mU3 msq2 msq lmQ3MR : R) : R :=
    let logmqQ3 := nlog (msq2 / mQ32) in
    let logU3Q3 := nlog (mU32 / mQ32) in
    let logQ3U3 := - logU3Q3 in
    ((((#48 * ((mQ32 * logU3Q3) * (mQ32 * ((#256 * mU32) * (#1 * #1))))) / (mQ32 * (pow3 (mQ32 - mU32)))) +
      ((#4 * ((#1536 * (#1 * #1)) * (pow6 mQ3))) / ((pow2 (mQ32 - mU32)) * (pow4 mQ3)))) - (((#3 * (pow2
      logU3Q3)) * (- ((#4 * (pow6 mQ3)) * ((#512 * (#1 * #1)) * (pow4 mU3))))) / (pow4 ((- (mQ3 * mU32)) +
      (pow3 mQ3))))) / #864.
Lemma yta2_QM_poly (Li2 : R -> R) (mQ32 mU32 mQ3 mU3 msq2 msq Xt lmQ3MR : R) : yta2_QM Li2 mQ32 mU32 mQ3 mU3 msq2 msq Xt lmQ3MR = (yta2_QM_0 Li2 mQ32 mU32 mQ3 mU3 msq2 msq lmQ3MR * Xt^0 + yta2_QM_1 Li2 mQ32 mU32 mQ3 mU3 msq2 msq lmQ3MR * Xt^1 + yta2_QM_2 Li2 mQ32 mU32 mQ3 mU3 msq2 msq lmQ3MR * Xt^2)%R.
Proof. unfold yta2_QM, yta2_QM_0, yta2_QM_1, yta2_QM_2. rewrite ?(p2 Xt), ?(p3 Xt), ?(p4 Xt), ?(p5 Xt). unR. unfold Rdiv. first [ring|unfold pow5, pow4, pow3, pow2; unR; ring]. Qed.

Definition yta2_UM_0 (Li2 : R -> R) (mQ32 mU32 mQ3 mU3 msq2 msq lmQ3MR : R) : R :=
    let logmqQ3 := nlog (msq2 / mQ32) in
    let logmqU3 := nlog (msq2 / mU32) in
    let logU3Q3 := nlog (mU32 / mQ32) in
    (((((((((((((((((((((((((#32080 - (((#1536 * (mQ32 + (mU3 * mU3))) * logU3Q3) / (mQ32 - mU32))) + (#768 *
      (pow2 lmQ3MR))) - (#11520 * (pow2 logmqQ3))) - (((#1152 * mU3) * ((#2 * (mQ32 - mU32)) + ((mQ32 + mU32)
      * logU3Q3))) / ((- (mQ32 * mU3)) + (pow3 mU3)))) - ((((#11520 * msq2) * ((#2 * (msq2 - mU32)) + ((msq2
      - (#3 * mU32)) * logmqU3))) * ((- (mQ32 * mU3)) + (pow3 mU3))) / ((((- mQ32) + mU32) * ((- msq2) +
      mU32)) * (pow3 mU3)))) - ((#48 * ((((#9 * ((#80 * msq2) - (#93 * mU32))) * mU32) + ((#10 * mQ32) *
      ((#24 * msq2) + (#61 * mU32)))) + (#19 * (pow4 mQ3)))) / (pow2 (mQ32 - mU32)))) - ((((#11520 * (mQ32 -
      msq2)) * (Li2 (#1 - (msq2 / mQ32)))) * (((((msq2 * mU3) * (#3 * mU3)) + (mQ32 * (msq2 - (mU3 * (#3 *
      mU3))))) + (pow4 mQ3)) - (#2 * (pow4 mU3)))) / (pow3 (mQ32 - mU32)))) + ((((#720 * (msq2 - mU32)) *
      ((mQ32 - mU32) * (msq2 + (#3 * mU32)))) * (Li2 (#1 - (msq2 / mU32)))) / ((mQ32 - mU32) * (pow4 mU3))))
      + ((#384 * (((((#2 * mQ32) * mU32) + (pow4 mQ3)) - (#3 * (pow4 mU3))) + (logU3Q3 * (((#3 * mQ32) *
      mU32) + (pow4 mU3))))) / ((- (mQ32 * mU32)) + (pow4 mU3)))) - ((#48 * (((((#2 * mU3) * (mQ32 - mU32)) *
      ((((((#(-120) * msq2) * mU3) * mU3) + (mQ32 * ((#120 * msq2) + (mU3 * (#(-137) * mU3))))) + ((#129 *
      mU3) * (pow3 mU3))) + (#12 * (pow4 mQ3)))) + ((logU3Q3 * (pow3 mU3)) * (((((#10 * mQ32) * mU3) *
      (#(-47) * mU3)) + (mU32 * (#227 * mU32))) + (#235 * (pow4 mQ3))))) + (((#20 * (mQ32 - mU32)) * logmqQ3)
      * (((((#(-12) * msq2) * mU32) * mU3) + (mQ32 * (((#12 * msq2) * mU3) + (pow3 mU3)))) - (pow5 mU3))))) /
      ((pow2 (mQ32 - mU32)) * (pow3 mU3)))) - (((#960 * logmqQ3) * ((((((#36 * msq2) * mU32) * mU3) + ((#6 *
      mQ32) * (((#2 * msq2) * mU3) - (#15 * (pow3 mU3))))) + ((#43 * mU3) * (pow4 mQ3))) + (#47 * (pow5
      mU3)))) / (mU3 * (pow2 (mQ32 - mU32))))) - (((#128 * (#3 - logU3Q3)) * ((mQ32 - mU32) * ((((#(-60) *
      msq2) * mU32) + (#30 * (pow4 msq))) - (#37 * (pow4 mU3))))) / ((mQ32 - mU32) * (pow4 mU3)))) + (((#48 *
      (#(-2) + logU3Q3)) * (((((#3 * (((#80 * msq2) * mU3) + (#27 * (pow3 mU3)))) * (pow4 mQ3)) + (((#240 *
      msq2) * mU3) * (pow4 mU3))) - ((#2 * mQ32) * ((((#240 * msq2) * mU32) * mU3) + ((#81 * mU3) * (pow4
      mU3))))) + ((#65 * mU32) * (pow5 mU3)))) / ((pow2 (mQ32 - mU32)) * (pow3 mU3)))) - ((#96 * ((((((#20 *
      mU32) * ((#3 * mQ32) + (mU3 * (#(-3) * mU3)))) * logmqQ3) * (pow2 (mQ32 - mU32))) + ((#2 * (pow2 (mQ32
      - mU32))) * ((((((#(-60) * msq2) * mU3) * mU3) + (mQ32 * ((#60 * msq2) - (#663 * mU32)))) + ((#41 *
      (#29 * mU3)) * (pow3 mU3))) + (#6 * (pow4 mQ3))))) + ((mU32 * logU3Q3) * (((((mQ32 * mU32) * (#(-1177)
      * mU32)) + ((mU3 * (#625 * mU3)) * (pow4 mQ3))) + ((#563 * mU32) * (pow4 mU3))) - (#43 * (pow6
      mQ3)))))) / (mU32 * (pow3 ((- mQ32) + mU32))))) + (((#96 * logU3Q3) * (((((mQ32 * mU32) * (#3971 *
      mU32)) + ((mU3 * (#(-2867) * mU3)) * (pow4 mQ3))) + ((#(-1665) * mU32) * (pow4 mU3))) + (#625 * (pow6
      mQ3)))) / (pow3 (mQ32 - mU32)))) - (((#128 * lmQ3MR) * ((((#120 * logmqQ3) * (pow3 (mQ32 - mU32))) +
      ((mQ32 - mU32) * (((((#(-4) * mQ32) * mU3) * (#511 * mU3)) + ((#983 * mU3) * (pow3 mU3))) + (#1037 *
      (pow4 mQ3))))) + ((#6 * logU3Q3) * ((((((#2 * mQ32) * (#(-61) * mU3)) * (pow3 mU3)) + ((mU3 * (#61 *
      mU3)) * (pow4 mQ3))) + ((#8 * (#7 * mU3)) * (pow5 mU3))) + (pow6 mQ3))))) / (pow3 (mQ32 - mU32)))) +
      ((#128 * (((- (((((#3 * mQ32) + (#30 * msq2)) - (#10 * mU32)) * (mQ32 - mU32)) * mU32)) + ((((#30 *
      msq2) * (msq2 - (#2 * mU32))) * (mQ32 - mU32)) * logmqQ3)) + (((#8 * ((#(-4) * mQ32) + (mU3 * (#4 *
      mU3)))) * logU3Q3) * (pow4 mU3)))) / ((- (mQ32 * (pow4 mU3))) + (pow6 mU3)))) + (((#24 * (Li2 (#1 -
      (mU32 / mQ32)))) * ((((- ((mQ32 * (#31 * mU3)) * (pow3 mU3))) + ((mU3 * (#19 * mU3)) * (pow4 mQ3))) -
      ((#119 * mU3) * (pow5 mU3))) + (#3 * (pow6 mQ3)))) / ((- (mQ32 * (pow4 mU3))) + (pow6 mU3)))) -
      (((#3840 * msq2) * (((((#(-10) * msq2) * mU32) + (#3 * (pow4 msq))) + (#7 * (pow4 mU3))) + (logmqU3 *
      ((((#(-3) * msq2) * mU32) + (pow4 msq)) + (#6 * (pow4 mU3)))))) / ((- (msq2 * (pow4 mU3))) + (pow6
      mU3)))) + (((#3 * (pow2 logU3Q3)) * (((((((#120 * mU3) * (pow3 mU3)) * (pow4 msq)) + ((pow4 mQ3) *
      ((((#240 * msq2) * mU32) + (#120 * (pow4 msq))) - (#1267 * (pow4 mU3))))) + (((#240 * msq2) * mU3) *
      (pow5 mU3))) - ((#2 * mQ32) * (((((#240 * msq2) * mU3) * (pow3 mU3)) + (((#120 * mU3) * mU3) * (pow4
      msq))) + ((#2573 * mU3) * (pow5 mU3))))) + ((#6413 * mU32) * (pow6 mU3)))) / ((pow2 (mQ32 - mU32)) *
      (pow4 mU3)))) + (((#24 * (Li2 (#1 - (mU32 / mQ32)))) * (((((((#2 * (#159 * mU3)) * (pow3 mU3)) * (pow4
      mQ3)) + (((#8 * mQ32) * (#193 * mU3)) * (pow5 mU3))) + (((#8 * mU3) * (#2 * mU3)) * (pow6 mQ3))) +
      ((#(-2649) * mU3) * (pow7 mU3))) + (#3 * (pow8 mQ3)))) / ((pow2 (mQ32 - mU32)) * (pow4 mU3)))) + (((#24
      * logU3Q3) * ((((#(-10) * logmqQ3) * (pow2 (mQ32 - mU32))) * ((mQ32 - mU32) * ((((#6 * msq2) * mU32) +
      (#3 * (pow4 msq))) - (#5 * (pow4 mU3))))) + (mU32 * ((((((#(-10) * (pow4 mQ3)) * (((#9 * msq2) * mU32)
      + (#325 * (pow4 mU3)))) + ((#6 * ((#5 * msq2) + (#2 * mU32))) * (pow6 mQ3))) - ((#3 * ((#10 * msq2) +
      (#971 * mU32))) * (pow6 mU3))) + ((#18 * mQ32) * (((#5 * msq2) * (pow4 mU3)) + (#338 * (pow6 mU3))))) +
      (#3 * (pow8 mQ3)))))) / ((pow3 (mQ32 - mU32)) * (pow4 mU3)))) + (((#3 * (pow2 logU3Q3)) * ((((((#4 *
      (((((#240 * msq2) * mU3) * (pow3 mU3)) + (((#120 * mU3) * mU3) * (pow4 msq))) + ((#(-8781) * mU3) *
      (pow5 mU3)))) * (pow6 mQ3)) + ((pow4 mQ3) * (((((#(-240) * (#11 * mU3)) * (pow3 mU3)) * (pow4 msq)) +
      (((#480 * msq2) * (#21 * mU3)) * (pow5 mU3))) + ((#2 * (#49527 * mU32)) * (pow6 mU3))))) +
      ((((((#(-240) * msq2) * mU32) * (#17 * mU3)) + ((#23053 * mU32) * (pow3 mU3))) + ((#120 * (#47 * mU3))
      * (pow4 msq))) * (pow7 mU3))) + (((((#(-240) * msq2) * mU32) - (#120 * (pow4 msq))) + (#1837 * (pow4
      mU3))) * (pow8 mQ3))) - ((#20 * mQ32) * (((((#24 * (#7 * mU3)) * (pow4 msq)) * (pow5 mU3)) + (((#48 *
      msq2) * (#7 * mU3)) * (pow7 mU3))) + ((#4377 * mU32) * (pow8 mU3)))))) / (pow4 ((- (mQ32 * mU3)) +
      (pow3 mU3))))) + (((#720 * (Li2 (#1 - (msq2 / mU32)))) * ((((((((#47 * mU3) * (pow4 msq)) * (pow5 mU3))
      - ((pow4 mQ3) * (((((#2 * msq2) * (#3 * mU3)) * (pow3 mU3)) + ((mU3 * (#3 * mU3)) * (pow4 msq))) +
      ((#39 * mU3) * (pow5 mU3))))) + (((((#2 * msq2) * mU32) + (pow4 msq)) + (#13 * (pow4 mU3))) * (pow6
      mQ3))) - (((#2 * msq2) * (#17 * mU3)) * (pow7 mU3))) + (mQ32 * (((((#19 * mU3) * (pow3 mU3)) * (pow4
      msq)) - (((#2 * msq2) * (#45 * mU3)) * (pow5 mU3))) + ((#119 * mU3) * (pow7 mU3))))) + ((#(-29) * mU3)
      * (pow9 mU3)))) / ((pow3 ((- mQ32) + mU32)) * (pow4 mU3)))) - (((#6 * logU3Q3) * (((((#4 * (mQ32 -
      mU32)) * mU32) * (((((((#(-2) * ((((#45 * msq2) * mU3) * mU3) + ((#11243 * mU3) * (pow3 mU3)))) * (pow4
      mQ3)) + (((#30 * msq2) * (#47 * mU3)) * (pow5 mU3))) + ((#2 * mQ32) * ((((#15 * msq2) * (#19 * mU3)) *
      (pow3 mU3)) + ((#4 * (#3693 * mU3)) * (pow5 mU3))))) + (((#30 * msq2) + ((#8 * mU3) * (#497 * mU3))) *
      (pow6 mQ3))) + ((#3 * (#(-3807) * mU3)) * (pow7 mU3))) + (#3 * (pow8 mQ3)))) + ((logU3Q3 * (pow4 mU3))
      * (((((((#2 * mU32) * (#25391 * mU32)) * (pow4 mQ3)) + (((#4 * mQ32) * (#(-12005) * mU32)) * (pow4
      mU3))) - (((#4 * mU3) * (#4621 * mU3)) * (pow6 mQ3))) + ((#15341 * mU32) * (pow6 mU3))) + (#1149 *
      (pow8 mQ3))))) - (((#40 * (mQ32 - mU32)) * logmqQ3) * ((((((((#3 * (#47 * mU3)) * (pow4 msq)) * (pow5
      mU3)) - ((pow4 mQ3) * (((((#6 * msq2) * (#3 * mU3)) * (pow3 mU3)) + (((#3 * mU3) * (#3 * mU3)) * (pow4
      msq))) + ((#33 * mU3) * (pow5 mU3))))) + (((((#6 * msq2) * mU32) + (#3 * (pow4 msq))) + (#11 * (pow4
      mU3))) * (pow6 mQ3))) - (((#6 * msq2) * (#17 * mU3)) * (pow7 mU3))) + (mQ32 * (((((#57 * mU3) * (pow3
      mU3)) * (pow4 msq)) - (((#6 * msq2) * (#45 * mU3)) * (pow5 mU3))) + ((#49 * mU3) * (pow7 mU3))))) +
      ((#(-27) * mU3) * (pow9 mU3)))))) / (pow4 ((- (mQ32 * mU3)) + (pow3 mU3))))) / #3456.
Definition yta2_UM_1 (Li2 : R -> R) (mQ32 mU32 mQ3 mU3 msq2 msq lmQ3MR : R) : R :=
    let logmqQ3 := nlog (msq2 / mQ32) in
    let logmqU3 := nlog (msq2 / mU32) in
    let logU3Q3 := nlog (mU32 / mQ32) in
    (((((((((((((((((((((- (((#1536 * (mU3 * (#2 * #1))) * logU3Q3) / (mQ32 - mU32))) - (((#1152 * (- (#2 *
      #1))) * ((#2 * (mQ32 - mU32)) + ((mQ32 + mU32) * logU3Q3))) / ((- (mQ32 * mU3)) + (pow3 mU3)))) -
      ((((#11520 * msq2) * ((#2 * (msq2 - mU32)) + ((msq2 - (#3 * mU32)) * logmqU3))) * (((#2 * msq2) * #1) -
      ((#2 * mU32) * #1))) / ((((- mQ32) + mU32) * ((- msq2) + mU32)) * (pow3 mU3)))) - ((((#11520 * (mQ32 -
      msq2)) * (Li2 (#1 - (msq2 / mQ32)))) * (((msq2 * mU3) * (#8 * #1)) + (mQ32 * (- (mU3 * (#8 * #1)))))) /
      (pow3 (mQ32 - mU32)))) + ((((#720 * (msq2 - mU32)) * (((#8 * mU3) * (msq2 - mU32)) * #1)) * (Li2 (#1 -
      (msq2 / mU32)))) / ((mQ32 - mU32) * (pow4 mU3)))) - (((#768 * #1) * ((((mQ32 * ((#30 * msq2) - (#58 *
      mU32))) + ((#90 * msq2) * mU32)) + (#3 * (pow4 mQ3))) + (#23 * (pow4 mU3)))) / (mU3 * (pow2 (mQ32 -
      mU32))))) - ((#48 * (((((#2 * mU3) * (mQ32 - mU32)) * (((((#(-120) * msq2) * mU3) * (- (#2 * #1))) +
      (mQ32 * (mU3 * (#24 * #1)))) + ((- (#104 * #1)) * (pow3 mU3)))) + ((logU3Q3 * (pow3 mU3)) * ((((#10 *
      mQ32) * mU3) * (#32 * #1)) + (mU32 * (- ((#352 * mU3) * #1)))))) + (((#20 * (mQ32 - mU32)) * logmqQ3) *
      ((((#(-12) * msq2) * mU32) * (- (#4 * #1))) - ((#24 * #1) * (pow4 msq)))))) / ((pow2 (mQ32 - mU32)) *
      (pow3 mU3)))) - (((#960 * logmqQ3) * ((((#36 * msq2) * mU32) * (#2 * #1)) + ((#6 * mQ32) * ((#2 * msq2)
      * (#2 * #1))))) / (mU3 * (pow2 (mQ32 - mU32))))) - (((#128 * (#3 - logU3Q3)) * ((#8 * #1) * (pow5
      mU3))) / ((mQ32 - mU32) * (pow4 mU3)))) + (((#48 * (#(-2) + logU3Q3)) * ((((((#480 * mU32) * #1) *
      (pow4 msq)) + (((#240 * msq2) * (- (#4 * #1))) * (pow4 mU3))) - ((#2 * mQ32) * (((((#240 * msq2) *
      mU32) * (- (#2 * #1))) + ((#240 * #1) * (pow4 msq))) + ((- (#184 * #1)) * (pow4 mU3))))) + ((- ((#432 *
      mU3) * #1)) * (pow5 mU3)))) / ((pow2 (mQ32 - mU32)) * (pow3 mU3)))) - ((#96 * ((((((#20 * mU32) * (mU3
      * (#8 * #1))) * logmqQ3) * (pow2 (mQ32 - mU32))) + ((#2 * (pow2 (mQ32 - mU32))) * (((((#(-60) * msq2) *
      mU3) * (- (#8 * #1))) + (mQ32 * ((#48 * mU3) * #1))) + ((#41 * (- (#32 * #1))) * (pow3 mU3))))) +
      ((mU32 * logU3Q3) * ((((mQ32 * mU32) * ((#864 * mU3) * #1)) + ((mU3 * (- (#656 * #1))) * (pow4 mQ3))) +
      ((- ((#336 * mU3) * #1)) * (pow4 mU3)))))) / (mU32 * (pow3 ((- mQ32) + mU32))))) + (((#96 * logU3Q3) *
      ((((mQ32 * mU32) * (- ((#3328 * mU3) * #1))) + ((mU3 * (#1856 * #1)) * (pow4 mQ3))) + (((#1728 * mU3) *
      #1) * (pow4 mU3)))) / (pow3 (mQ32 - mU32)))) - (((#128 * lmQ3MR) * (((mQ32 - mU32) * ((((#(-4) * mQ32)
      * mU3) * (#306 * #1)) + ((#1176 * #1) * (pow3 mU3)))) + ((#6 * logU3Q3) * (((((#2 * mQ32) * (#32 * #1))
      * (pow3 mU3)) + ((mU3 * (- (#136 * #1))) * (pow4 mQ3))) + ((#8 * (#8 * #1)) * (pow5 mU3)))))) / (pow3
      (mQ32 - mU32)))) + ((#128 * (((#8 * (mU3 * #1)) * logU3Q3) * (pow4 mU3))) / ((- (mQ32 * (pow4 mU3))) +
      (pow6 mU3)))) + (((#24 * (Li2 (#1 - (mU32 / mQ32)))) * (((- ((mQ32 * (#80 * #1)) * (pow3 mU3))) + ((mU3
      * (#24 * #1)) * (pow4 mQ3))) - ((#456 * #1) * (pow5 mU3)))) / ((- (mQ32 * (pow4 mU3))) + (pow6 mU3))))
      + (((#3 * (pow2 logU3Q3)) * ((((((#120 * (- (#8 * #1))) * (pow3 mU3)) * (pow4 msq)) + (((#240 * msq2) *
      (#8 * #1)) * (pow5 mU3))) - ((#2 * mQ32) * (((((#240 * msq2) * (#4 * #1)) * (pow3 mU3)) + (((#120 *
      mU3) * (- (#4 * #1))) * (pow4 msq))) + ((- (#4832 * #1)) * (pow5 mU3))))) + ((- ((#7616 * mU3) * #1)) *
      (pow6 mU3)))) / ((pow2 (mQ32 - mU32)) * (pow4 mU3)))) + (((#24 * (Li2 (#1 - (mU32 / mQ32)))) * ((((((#2
      * (- (#52 * #1))) * (pow3 mU3)) * (pow4 mQ3)) + (((#8 * mQ32) * (- (#271 * #1))) * (pow5 mU3))) + (((#8
      * mU3) * (#3 * #1)) * (pow6 mQ3))) + ((#2248 * #1) * (pow7 mU3)))) / ((pow2 (mQ32 - mU32)) * (pow4
      mU3)))) + (((#24 * logU3Q3) * ((((#(-10) * logmqQ3) * (pow2 (mQ32 - mU32))) * (((#8 * mU3) * #1) *
      ((((#(-6) * msq2) * mU32) + (#3 * (pow4 msq))) + (#2 * (pow4 mU3))))) + (((#8 * #1) * (pow3 mU3)) *
      ((((((#5 * ((#6 * msq2) + (#113 * mU32))) * (pow4 mQ3)) + ((#30 * msq2) * (pow4 mU3))) - ((#3 * mQ32) *
      (((#20 * msq2) * mU32) + (#409 * (pow4 mU3))))) + (#3 * (pow6 mQ3))) + (#627 * (pow6 mU3)))))) / ((pow3
      (mQ32 - mU32)) * (pow4 mU3)))) + (((#3 * (pow2 logU3Q3)) * (((((#4 * (((((#240 * msq2) * (#2 * #1)) *
      (pow3 mU3)) + (((#120 * mU3) * (- (#2 * #1))) * (pow4 msq))) + ((#12800 * #1) * (pow5 mU3)))) * (pow6
      mQ3)) + ((pow4 mQ3) * (((((#(-240) * (- (#12 * #1))) * (pow3 mU3)) * (pow4 msq)) + (((#480 * msq2) *
      (#52 * #1)) * (pow5 mU3))) + ((#2 * (- ((#43840 * mU3) * #1))) * (pow6 mU3))))) + ((((((#(-240) * msq2)
      * mU32) * (#8 * #1)) + ((- ((#7808 * mU3) * #1)) * (pow3 mU3))) + ((#120 * (#136 * #1)) * (pow4 msq)))
      * (pow7 mU3))) - ((#20 * mQ32) * (((((#24 * (#38 * #1)) * (pow4 msq)) * (pow5 mU3)) + (((#48 * msq2) *
      (#26 * #1)) * (pow7 mU3))) + ((- ((#2624 * mU3) * #1)) * (pow8 mU3)))))) / (pow4 ((- (mQ32 * mU3)) +
      (pow3 mU3))))) + (((#720 * (Li2 (#1 - (msq2 / mU32)))) * (((((((#136 * #1) * (pow4 msq)) * (pow5 mU3))
      - ((pow4 mQ3) * (((((#2 * msq2) * (#8 * #1)) * (pow3 mU3)) + ((mU3 * (- (#8 * #1))) * (pow4 msq))) +
      ((- (#136 * #1)) * (pow5 mU3))))) - (((#2 * msq2) * (#8 * #1)) * (pow7 mU3))) + (mQ32 * (((((- (#16 *
      #1)) * (pow3 mU3)) * (pow4 msq)) - (((#2 * msq2) * (#112 * #1)) * (pow5 mU3))) + ((- (#16 * #1)) *
      (pow7 mU3))))) + ((#8 * #1) * (pow9 mU3)))) / ((pow3 ((- mQ32) + mU32)) * (pow4 mU3)))) - (((#6 *
      logU3Q3) * (((((#4 * (mQ32 - mU32)) * mU32) * ((((((#(-2) * ((((#45 * msq2) * mU3) * (#8 * #1)) + ((-
      (#5748 * #1)) * (pow3 mU3)))) * (pow4 mQ3)) + (((#30 * msq2) * (#104 * #1)) * (pow5 mU3))) + ((#2 *
      mQ32) * ((((#15 * msq2) * (#48 * #1)) * (pow3 mU3)) + ((#4 * (- (#1951 * #1))) * (pow5 mU3))))) + (((#8
      * mU3) * (- (#9 * #1))) * (pow6 mQ3))) + ((#3 * (#968 * #1)) * (pow7 mU3)))) + ((logU3Q3 * (pow4 mU3))
      * ((((((#2 * mU32) * (- ((#28144 * mU3) * #1))) * (pow4 mQ3)) + (((#4 * mQ32) * ((#14088 * mU3) * #1))
      * (pow4 mU3))) - (((#4 * mU3) * (- (#5624 * #1))) * (pow6 mQ3))) + ((- ((#19488 * mU3) * #1)) * (pow6
      mU3))))) - (((#40 * (mQ32 - mU32)) * logmqQ3) * (((((((#3 * (#136 * #1)) * (pow4 msq)) * (pow5 mU3)) -
      ((pow4 mQ3) * (((((#6 * msq2) * (#8 * #1)) * (pow3 mU3)) + (((#3 * mU3) * (- (#8 * #1))) * (pow4 msq)))
      + ((- (#80 * #1)) * (pow5 mU3))))) - (((#6 * msq2) * (#8 * #1)) * (pow7 mU3))) + (mQ32 * (((((- (#48 *
      #1)) * (pow3 mU3)) * (pow4 msq)) - (((#6 * msq2) * (#112 * #1)) * (pow5 mU3))) + ((- (#96 * #1)) *
      (pow7 mU3))))) + ((#16 * #1) * (pow9 mU3)))))) / (pow4 ((- (mQ32 * mU3)) + (pow3 mU3))))) / #3456.
Definition yta2_UM_2 (Li2 : R -> R) (mQ32 mU32 mQ3 mU3 msq2 msq lmQ3MR : R) : R :=
    let logmqQ3 := nlog (msq2 / mQ32) in
    let logmqU3 := nlog (msq2 / mU32) in
    let logU3Q3 := nlog (mU32 / mQ32) in
    (((((((- ((#48 * ((logU3Q3 * (pow3 mU3)) * (mU32 * (- (#256 * (#1 * #1)))))) / ((pow2 (mQ32 - mU32)) *
      (pow3 mU3)))) + (((#48 * (#(-2) + logU3Q3)) * ((- (#256 * (#1 * #1))) * (pow5 mU3))) / ((pow2 (mQ32 -
      mU32)) * (pow3 mU3)))) - ((#96 * ((mU32 * logU3Q3) * (((mQ32 * mU32) * (- (#768 * (#1 * #1)))) + ((#256
      * (#1 * #1)) * (pow4 mU3))))) / (mU32 * (pow3 ((- mQ32) + mU32))))) + (((#96 * logU3Q3) * (((mQ32 *
      mU32) * (#1280 * (#1 * #1))) + ((- (#256 * (#1 * #1))) * (pow4 mU3)))) / (pow3 (mQ32 - mU32)))) + (((#3
      * (pow2 logU3Q3)) * ((- (#512 * (#1 * #1))) * (pow6 mU3))) / ((pow2 (mQ32 - mU32)) * (pow4 mU3)))) +
      (((#3 * (pow2 logU3Q3)) * ((((pow4 mQ3) * ((#2 * (#9984 * (#1 * #1))) * (pow6 mU3))) + (((- (#512 * (#1
      * #1))) * (pow3 mU3)) * (pow7 mU3))) - ((#20 * mQ32) * ((- (#256 * (#1 * #1))) * (pow8 mU3))))) / (pow4
      ((- (mQ32 * mU3)) + (pow3 mU3))))) - (((#6 * logU3Q3) * ((logU3Q3 * (pow4 mU3)) * (((((#2 * mU32) *
      (#2816 * (#1 * #1))) * (pow4 mQ3)) + (((#4 * mQ32) * (#768 * (#1 * #1))) * (pow4 mU3))) + ((- (#512 *
      (#1 * #1))) * (pow6 mU3))))) / (pow4 ((- (mQ32 * mU3)) + (pow3 mU3))))) / #3456.
Lemma yta2_UM_poly (Li2 : R -> R) (mQ32 mU32 mQ3 mU3 msq2 msq Xt lmQ3MR : R) : yta2_UM Li2 mQ32 mU32 mQ3 mU3 msq2 msq Xt lmQ3MR = (yta2_UM_0 Li2 mQ32 mU32 mQ3 mU3 msq2 msq lmQ3MR * Xt^0 + yta2_UM_1 Li2 mQ32 mU32 mQ3 mU3 msq2 msq lmQ3MR * Xt^1 + yta2_UM_2 Li2 mQ32 mU32 mQ3 mU3 msq2 msq lmQ3MR * Xt^2)%R.
Proof. unfold yta2_UM, yta2_UM_0, yta2_UM_1, yta2_UM_2. rewrite ?(p2 Xt), ?(p3 Xt), ?(p4 Xt), ?(p5 Xt). unR. unfold Rdiv. first [ring|unfold pow5, pow4, pow3, pow2; unR; ring]. Qed.

Definition yta2_QUM_0 (Li2 : R -> R) (mQ32 mQ3 msq2 lmQ3MR : R) : R :=
    let logmqQ3 := nlog (msq2 / mQ32) in
    ((((((((((#1835 * mQ32) * msq2) + (((#780 * mQ32) * msq2) * logmqQ3)) - ((((#4 * lmQ3MR) * mQ3) * (mQ32 -
      msq2)) * ((#335 * mQ3) + ((#60 * mQ3) * logmqQ3)))) + (((#180 * mQ32) * msq2) * (pow2 logmqQ3))) -
      (#1835 * (pow4 mQ3))) - ((#540 * logmqQ3) * (pow4 mQ3))) - ((#180 * (pow2 logmqQ3)) * (pow4 mQ3))) -
      ((#360 * (Li2 (#1 - (msq2 / mQ32)))) * ((- (mQ32 * msq2)) + (pow4 mQ3)))) + ((#12 * (pow2 lmQ3MR)) *
      ((- (mQ32 * msq2)) + (pow4 mQ3)))) / ((#54 * mQ32) * (mQ32 - msq2)).
Definition yta2_QUM_1 (Li2 : R -> R) (mQ32 mQ3 msq2 lmQ3MR : R) : R :=
    let logmqQ3 := nlog (msq2 / mQ32) in
    (((((- (((#232 * mQ3) * msq2) * #1)) - ((((#360 * mQ3) * msq2) * #1) * logmqQ3)) - ((((#4 * lmQ3MR) *
      mQ3) * (mQ32 - msq2)) * (#104 * #1))) + ((#232 * #1) * (pow3 mQ3))) - (((#120 * #1) * logmqQ3) * (pow3
      mQ3))) / ((#54 * mQ32) * (mQ32 - msq2)).
Definition yta2_QUM_2 (Li2 : R -> R) (mQ32 mQ3 msq2 lmQ3MR : R) : R :=
    let logmqQ3 := nlog (msq2 / mQ32) in
    (((#96 * mQ32) * (#1 * #1)) - ((#96 * msq2) * (#1 * #1))) / ((#54 * mQ32) * (mQ32 - msq2)).
Lemma yta2_QUM_poly (Li2 : R -> R) (mQ32 mQ3 msq2 Xt lmQ3MR : R) : yta2_QUM Li2 mQ32 mQ3 msq2 Xt lmQ3MR = (yta2_QUM_0 Li2 mQ32 mQ3 msq2 lmQ3MR * Xt^0 + yta2_QUM_1 Li2 mQ32 mQ3 msq2 lmQ3MR * Xt^1 + yta2_QUM_2 Li2 mQ32 mQ3 msq2 lmQ3MR * Xt^2)%R.
Proof. unfold yta2_QUM, yta2_QUM_0, yta2_QUM_1, yta2_QUM_2. rewrite ?(p2 Xt), ?(p3 Xt), ?(p4 Xt), ?(p5 Xt). unR. unfold Rdiv. first [ring|unfold pow5, pow4, pow3, pow2; unR; ring]. Qed.

Definition yta2_D_0 (mQ32 mQ3 lmQ3MR : R) : R :=
    (((#(-2075) * mQ32) - (((#4 * lmQ3MR) * mQ3) * (#335 * mQ3))) + ((#12 * mQ32) * (pow2 lmQ3MR))) / (#54 *
      mQ32).
Definition yta2_D_1 (mQ32 mQ3 lmQ3MR : R) : R :=
    (((#712 * mQ3) * #1) - (((#4 * lmQ3MR) * mQ3) * (#104 * #1))) / (#54 * mQ32).
Definition yta2_D_2 (mQ32 mQ3 lmQ3MR : R) : R :=
    (#96 * (#1 * #1)) / (#54 * mQ32).
Lemma yta2_D_poly (mQ32 mQ3 Xt lmQ3MR : R) : yta2_D mQ32 mQ3 Xt lmQ3MR = (yta2_D_0 mQ32 mQ3 lmQ3MR * Xt^0 + yta2_D_1 mQ32 mQ3 lmQ3MR * Xt^1 + yta2_D_2 mQ32 mQ3 lmQ3MR * Xt^2)%R.
Proof. unfold yta2_D, yta2_D_0, yta2_D_1, yta2_D_2. rewrite ?(p2 Xt), ?(p3 Xt), ?(p4 Xt), ?(p5 Xt). unR. unfold Rdiv. first [ring|unfold pow5, pow4, pow3, pow2; unR; ring]. Qed.

Definition lata_G_0 (Li2 : R -> R) (mQ32 mU32 m32 mQ3 mU3 m3 lmQ3MR : R) : R :=
    #16 * ((((((((#(-6) * (pow2 lmQ3MR)) - (((#2 * (Li2 (#1 - (m32 / (pow2 mQ3))))) * ((#2 * (pow3 (mQ32 -
      mU32))) * (pow4 m3))) / ((pow2 (m32 - mQ32)) * (pow3 (mQ32 - mU32))))) - (((#2 * (Li2 (#1 - (m32 /
      (pow2 mU3))))) * ((#2 * (pow3 (mQ32 - mU32))) * (pow4 m3))) / ((pow2 (m32 - mU32)) * (pow3 (mQ32 -
      mU32))))) + ((((((((#(-6) * m32) * mQ32) * mU32) * (mQ32 + mU32)) + ((#3 * (pow4 mQ3)) * (pow4 mU3))) +
      ((pow4 m3) * ((((#9 * mQ32) * mU32) + (#2 * (pow4 mQ3))) + (#2 * (pow4 mU3))))) - ((#2 * (mQ32 + mU32))
      * (pow6 m3))) / (((((- m32) + mQ32) * (m32 - mU32)) * (pow2 mQ3)) * (pow2 mU3)))) + (((#2 * lmQ3MR) *
      ((((mQ32 - mU32) * ((((#2 * mQ32) * mU32) * ((((#(-2) * mQ32) * mU32) + (pow4 mQ3)) + (pow4 mU3))) -
      (m32 * (((((pow3 mU3) * (pow3 mU3)) - (mU32 * (pow4 mQ3))) + (mQ32 * (- (pow4 mU3)))) + (pow6 mQ3)))))
      / ((pow2 mQ3) * (pow2 mU3))) - ((nlog (mU32 / (pow2 mQ3))) * (((((#(-9) * mU32) * (pow4 mQ3)) + (mQ32 *
      (#9 * (pow4 mU3)))) + (#3 * (pow6 mQ3))) - (#3 * (pow6 mU3)))))) / (pow3 (mQ32 - mU32)))) - (((pow2
      (nlog (mU32 / (pow2 mQ3)))) * (((((#(-4) * m32) * mU32) + (#3 * (pow4 m3))) + (#2 * (pow4 mU3))) *
      (pow4 (mQ32 - mU32)))) / ((pow2 (m32 - mU32)) * (pow4 (mQ32 - mU32))))) + (((nlog (mU32 / (pow2 mQ3)))
      * ((pow3 (mQ32 - mU32)) * ((((- (((#6 * mQ32) + (#7 * mU32)) * (pow4 m3))) - ((#2 * mQ32) * (pow4
      mU3))) + (m32 * (((#5 * mQ32) * mU32) + (#3 * (pow4 mU3))))) + (#7 * (pow6 m3))))) / (((m32 - mQ32) *
      (pow2 (m32 - mU32))) * (pow3 (mQ32 - mU32))))) - (((m32 * (nlog (m32 / (pow2 mQ3)))) * (((((m3 * mQ32)
      * mU32) * (nlog (mU32 / (pow2 mQ3)))) * ((m3 * (((#2 * m32) - mQ32) - mU32)) * (pow4 (mQ32 - mU32)))) +
      ((m32 * (pow3 (mQ32 - mU32))) * ((((((#2 * m32) * (mQ32 + mU32)) * (pow2 (mQ32 - mU32))) + ((pow4 m3) *
      ((((#2 * mQ32) * mU32) - (#4 * (pow4 mQ3))) - (#4 * (pow4 mU3))))) + ((mQ32 * mU32) * ((pow4 mQ3) +
      (pow4 mU3)))) + ((#2 * (mQ32 + mU32)) * (pow6 m3)))))) / (((((pow2 mQ3) * (pow2 (m32 - mQ32))) * (pow2
      mU3)) * (pow2 (m32 - mU32))) * (pow3 (mQ32 - mU32))))).
Definition lata_G_1 (Li2 : R -> R) (mQ32 mU32 m32 mQ3 mU3 m3 lmQ3MR : R) : R :=
    #16 * ((((((- (((#2 * (Li2 (#1 - (m32 / (pow2 mQ3))))) * ((((#(-8) * (m32 - mQ32)) * #1) * (pow2 (mQ32 -
      mU32))) * (pow3 m3))) / ((pow2 (m32 - mQ32)) * (pow3 (mQ32 - mU32))))) - (((#2 * (Li2 (#1 - (m32 /
      (pow2 mU3))))) * ((((#8 * (m32 - mU32)) * #1) * (pow2 (mQ32 - mU32))) * (pow3 m3))) / ((pow2 (m32 -
      mU32)) * (pow3 (mQ32 - mU32))))) + (((#2 * lmQ3MR) * (- ((nlog (mU32 / (pow2 mQ3))) * (((((#4 * m3) *
      #1) * (pow4 mQ3)) + (((#2 * (#2 * m3)) * #1) * (pow4 mU3))) + (mQ32 * (((#4 * mU32) * #1) * (#(-2) *
      m3))))))) / (pow3 (mQ32 - mU32)))) - (((pow2 (nlog (mU32 / (pow2 mQ3)))) * ((((#4 * (m32 - mU32)) * #1)
      * ((- (m3 * mU32)) + (#2 * (pow3 m3)))) * (pow3 (mQ32 - mU32)))) / ((pow2 (m32 - mU32)) * (pow4 (mQ32 -
      mU32))))) + (((nlog (mU32 / (pow2 mQ3))) * (((((#8 * m3) * (m32 - mQ32)) * #1) * (pow2 (m32 - mU32))) *
      (pow2 (mQ32 - mU32)))) / (((m32 - mQ32) * (pow2 (m32 - mU32))) * (pow3 (mQ32 - mU32))))) - (((m32 *
      (nlog (m32 / (pow2 mQ3)))) * ((((m3 * mQ32) * mU32) * (nlog (mU32 / (pow2 mQ3)))) * (((((#(-4) * (m32 -
      mQ32)) * (m32 - mU32)) * (((#2 * m32) - mQ32) - mU32)) * #1) * (pow2 (mQ32 - mU32))))) / (((((pow2 mQ3)
      * (pow2 (m32 - mQ32))) * (pow2 mU3)) * (pow2 (m32 - mU32))) * (pow3 (mQ32 - mU32))))).
Definition lata_G_2 (Li2 : R -> R) (mQ32 mU32 m32 mQ3 mU3 m3 lmQ3MR : R) : R :=
    #16 * (((((- (((#4 * m32) * (#1 * #1)) / ((pow2 mQ3) * (pow2 mU3)))) + (((#2 * lmQ3MR) * ((((mQ32 - mU32)
      * (- (m32 * (((((- (mU3 * (#1 * #1))) * (pow3 mU3)) + ((pow3 mU3) * (- (mU3 * (#1 * #1))))) - ((#2 *
      (#1 * #1)) * (pow4 mQ3))) + (mQ32 * ((#4 * mU32) * (#1 * #1))))))) / ((pow2 mQ3) * (pow2 mU3))) -
      ((nlog (mU32 / (pow2 mQ3))) * ((((- (#6 * (#1 * #1))) * (pow4 mQ3)) + (((#2 * (- (#3 * #1))) * #1) *
      (pow4 mU3))) + (mQ32 * (((#4 * mU32) * #1) * (#3 * #1))))))) / (pow3 (mQ32 - mU32)))) - (((pow2 (nlog
      (mU32 / (pow2 mQ3)))) * (- (((#2 * (pow2 (mQ32 - mU32))) * (#1 * #1)) * ((((mQ32 - (#3 * mU32)) * (pow4
      m3)) + ((#2 * (mQ32 - (#2 * mU32))) * (pow4 mU3))) + (m32 * (((#(-4) * mQ32) * mU32) + (#8 * (pow4
      mU3)))))))) / ((pow2 (m32 - mU32)) * (pow4 (mQ32 - mU32))))) + (((nlog (mU32 / (pow2 mQ3))) * (- ((((#2
      * (m32 - mU32)) * (pow2 (mQ32 - mU32))) * (#1 * #1)) * ((((#3 * mQ32) * mU32) - ((#2 * m32) * ((#3 *
      mQ32) + (#2 * mU32)))) + (#7 * (pow4 m3)))))) / (((m32 - mQ32) * (pow2 (m32 - mU32))) * (pow3 (mQ32 -
      mU32))))) - (((m32 * (nlog (m32 / (pow2 mQ3)))) * (((((((#(-4) * m32) * (m32 - mQ32)) * (m32 - mU32)) *
      ((m32 - mQ32) - mU32)) * (#1 * #1)) * (pow3 (mQ32 - mU32))) + ((((m3 * mQ32) * mU32) * (nlog (mU32 /
      (pow2 mQ3)))) * (- ((((#2 * m3) * (pow2 (mQ32 - mU32))) * (#1 * #1)) * (((((#(-2) * m32) * (mQ32 +
      mU32)) + (#2 * (pow4 m3))) + (pow4 mQ3)) + (pow4 mU3))))))) / (((((pow2 mQ3) * (pow2 (m32 - mQ32))) *
      (pow2 mU3)) * (pow2 (m32 - mU32))) * (pow3 (mQ32 - mU32))))).
Definition lata_G_3 (Li2 : R -> R) (mQ32 mU32 m32 mQ3 mU3 m3 lmQ3MR : R) : R :=
    #16 * (((((((- (((#32 * m3) * ((#1 * #1) * #1)) / (pow2 (mQ32 - mU32)))) - (((#2 * (Li2 (#1 - (m32 /
      (pow2 mQ3))))) * (- ((((#4 * m3) * (((#2 * m32) - mQ32) - mU32)) * (pow2 (m32 - mQ32))) * ((#1 * #1) *
      #1)))) / ((pow2 (m32 - mQ32)) * (pow3 (mQ32 - mU32))))) - (((#2 * (Li2 (#1 - (m32 / (pow2 mU3))))) *
      ((((#4 * m3) * (((#2 * m32) - mQ32) - mU32)) * (pow2 (m32 - mU32))) * ((#1 * #1) * #1))) / ((pow2 (m32
      - mU32)) * (pow3 (mQ32 - mU32))))) + (((#2 * lmQ3MR) * ((((mQ32 - mU32) * ((((#8 * m3) * mQ32) * mU32)
      * ((#1 * #1) * #1))) / ((pow2 mQ3) * (pow2 mU3))) - ((nlog (mU32 / (pow2 mQ3))) * (((mU32 * (#(-4) *
      m3)) * ((#1 * #1) * #1)) + (mQ32 * ((#(-4) * m3) * ((#1 * #1) * #1))))))) / (pow3 (mQ32 - mU32)))) -
      (((pow2 (nlog (mU32 / (pow2 mQ3)))) * (((((#4 * m3) * (m32 - mU32)) * (mQ32 - mU32)) * ((#1 * #1) *
      #1)) * (((((#3 * mQ32) * mU32) - (m32 * (mQ32 + (#3 * mU32)))) + (#2 * (pow4 m3))) - (pow4 mU3)))) /
      ((pow2 (m32 - mU32)) * (pow4 (mQ32 - mU32))))) + (((nlog (mU32 / (pow2 mQ3))) * (- (((((#8 * m3) * (m32
      - mQ32)) * (mQ32 + (#3 * mU32))) * (pow2 (m32 - mU32))) * ((#1 * #1) * #1)))) / (((m32 - mQ32) * (pow2
      (m32 - mU32))) * (pow3 (mQ32 - mU32))))) - (((m32 * (nlog (m32 / (pow2 mQ3)))) * ((((m3 * mQ32) * mU32)
      * (nlog (mU32 / (pow2 mQ3)))) * (- ((((#8 * (m32 - mQ32)) * (m32 - mU32)) * ((#1 * #1) * #1)) *
      ((((((#4 * mQ32) * mU32) - ((#2 * m32) * (mQ32 + mU32))) + (#2 * (pow4 m3))) - (pow4 mQ3)) - (pow4
      mU3)))))) / (((((pow2 mQ3) * (pow2 (m32 - mQ32))) * (pow2 mU3)) * (pow2 (m32 - mU32))) * (pow3 (mQ32 -
      mU32))))).
Definition lata_G_4 (Li2 : R -> R) (mQ32 mU32 m32 mQ3 mU3 m3 lmQ3MR : R) : R :=
    #16 * (((((((- (((#2 * (Li2 (#1 - (m32 / (pow2 mQ3))))) * (- (((((#2 * m32) - mQ32) - mU32) * (pow2 (m32
      - mQ32))) * (((#1 * #1) * #1) * #1)))) / ((pow2 (m32 - mQ32)) * (pow3 (mQ32 - mU32))))) - (((#2 * (Li2
      (#1 - (m32 / (pow2 mU3))))) * (((((#2 * m32) - mQ32) - mU32) * (pow2 (m32 - mU32))) * (((#1 * #1) * #1)
      * #1))) / ((pow2 (m32 - mU32)) * (pow3 (mQ32 - mU32))))) + (((#2 * (((#1 * #1) * #1) * #1)) *
      (((((((#(-5) * m32) * mQ32) * mU32) * (mQ32 + mU32)) + ((#5 * (pow4 mQ3)) * (pow4 mU3))) - ((pow4 m3) *
      ((((#(-5) * mQ32) * mU32) + (pow4 mQ3)) + (pow4 mU3)))) + ((mQ32 + mU32) * (pow6 m3)))) / (((((m32 -
      mQ32) * (m32 - mU32)) * (pow2 mQ3)) * (pow2 mU3)) * (pow2 (mQ32 - mU32))))) + (((#2 * lmQ3MR) *
      ((((mQ32 - mU32) * ((((#2 * mQ32) * mU32) * (- (#3 * (((#1 * #1) * #1) * #1)))) - (m32 * (((- (mU3 *
      (#1 * #1))) * (- (mU3 * (#1 * #1)))) + (mQ32 * (((#1 * #1) * #1) * #1)))))) / ((pow2 mQ3) * (pow2
      mU3))) - ((nlog (mU32 / (pow2 mQ3))) * ((((mU32 * (#3 * #1)) * ((#1 * #1) * #1)) + (mQ32 * ((#3 * #1) *
      ((#1 * #1) * #1)))) + ((#2 * m32) * (((#1 * #1) * #1) * #1)))))) / (pow3 (mQ32 - mU32)))) - (((pow2
      (nlog (mU32 / (pow2 mQ3)))) * ((((#1 * #1) * #1) * #1) * ((((((#(-8) * mQ32) * mU32) * (pow4 m3)) +
      (((((#(-4) * mQ32) * mU32) + (pow4 mQ3)) - (#5 * (pow4 mU3))) * (pow4 mU3))) + ((#2 * (mQ32 - mU32)) *
      (pow6 m3))) + (m32 * ((((#(-2) * mU32) * (pow4 mQ3)) + ((#10 * mQ32) * (pow4 mU3))) + (#8 * (pow6
      mU3))))))) / ((pow2 (m32 - mU32)) * (pow4 (mQ32 - mU32))))) + (((nlog (mU32 / (pow2 mQ3))) * ((((#1 *
      #1) * #1) * #1) * (((((((#(-3) * mQ32) * (mQ32 + (#5 * mU32))) * (pow4 mU3)) - ((pow4 m3) * ((((#15 *
      mQ32) * mU32) + (#6 * (pow4 mQ3))) + (#29 * (pow4 mU3))))) + (((#3 * mQ32) + (#7 * mU32)) * (pow6 m3)))
      + (m32 * ((((#7 * mU32) * (pow4 mQ3)) + ((#31 * mQ32) * (pow4 mU3))) + (#16 * (pow6 mU3))))) + (#4 *
      (pow8 m3))))) / (((m32 - mQ32) * (pow2 (m32 - mU32))) * (pow3 (mQ32 - mU32))))) - (((m32 * (nlog (m32 /
      (pow2 mQ3)))) * (((((m3 * mQ32) * mU32) * (nlog (mU32 / (pow2 mQ3)))) * (((m3 * (mQ32 + mU32)) *
      (((((#(-2) * m32) * (mQ32 + mU32)) + (#2 * (pow4 m3))) + (pow4 mQ3)) + (pow4 mU3))) * (((#1 * #1) * #1)
      * #1))) + (((#2 * (mQ32 - mU32)) * (((#1 * #1) * #1) * #1)) * ((((((pow3 (mQ32 + mU32)) * (pow4 m3)) +
      (((mQ32 + mU32) * (pow4 mQ3)) * (pow4 mU3))) - (((m32 * mQ32) * mU32) * ((((#4 * mQ32) * mU32) + (pow4
      mQ3)) + (pow4 mU3)))) - ((#2 * (((mQ32 * mU32) + (pow4 mQ3)) + (pow4 mU3))) * (pow6 m3))) + ((mQ32 +
      mU32) * (pow8 m3)))))) / (((((pow2 mQ3) * (pow2 (m32 - mQ32))) * (pow2 mU3)) * (pow2 (m32 - mU32))) *
      (pow3 (mQ32 - mU32))))).
Definition lata_G_5 (Li2 : R -> R) (mQ32 mU32 m32 mQ3 mU3 m3 lmQ3MR : R) : R :=
    #16 * (((- (((pow2 (nlog (mU32 / (pow2 mQ3)))) * (- (((((#4 * m3) * (m32 - mU32)) * mU32) * (mQ32 +
      mU32)) * ((((#1 * #1) * #1) * #1) * #1)))) / ((pow2 (m32 - mU32)) * (pow4 (mQ32 - mU32))))) + (((nlog
      (mU32 / (pow2 mQ3))) * (((((#8 * m3) * (m32 - mQ32)) * (m32 - mU32)) * mU32) * ((((#1 * #1) * #1) * #1)
      * #1))) / (((m32 - mQ32) * (pow2 (m32 - mU32))) * (pow3 (mQ32 - mU32))))) - (((m32 * (nlog (m32 / (pow2
      mQ3)))) * ((- (((((((#8 * m3) * (m32 - mQ32)) * mQ32) * (m32 - mU32)) * (mQ32 - mU32)) * mU32) * ((((#1
      * #1) * #1) * #1) * #1))) + ((((m3 * mQ32) * mU32) * (nlog (mU32 / (pow2 mQ3)))) * (- ((((#4 * (m32 -
      mQ32)) * (m32 - mU32)) * (mQ32 + mU32)) * ((((#1 * #1) * #1) * #1) * #1)))))) / (((((pow2 mQ3) * (pow2
      (m32 - mQ32))) * (pow2 mU3)) * (pow2 (m32 - mU32))) * (pow3 (mQ32 - mU32))))).
Lemma lata_G_poly (Li2 : R -> R) (mQ32 mU32 m32 mQ3 mU3 m3 Xt lmQ3MR : R) : lata_G Li2 mQ32 mU32 m32 mQ3 mU3 m3 Xt lmQ3MR = (lata_G_0 Li2 mQ32 mU32 m32 mQ3 mU3 m3 lmQ3MR * Xt^0 + lata_G_1 Li2 mQ32 mU32 m32 mQ3 mU3 m3 lmQ3MR * Xt^1 + lata_G_2 Li2 mQ32 mU32 m32 mQ3 mU3 m3 lmQ3MR * Xt^2 + lata_G_3 Li2 mQ32 mU32 m32 mQ3 mU3 m3 lmQ3MR * Xt^3 + lata_G_4 Li2 mQ32 mU32 m32 mQ3 mU3 m3 lmQ3MR * Xt^4 + lata_G_5 Li2 mQ32 mU32 m32 mQ3 mU3 m3 lmQ3MR * Xt^5)%R.
Proof. unfold lata_G, lata_G_0, lata_G_1, lata_G_2, lata_G_3, lata_G_4, lata_G_5. rewrite ?(p2 Xt), ?(p3 Xt), ?(p4 Xt), ?(p5 Xt). unR. unfold Rdiv. first [ring|unfold pow5, pow4, pow3, pow2; unR; ring]. Qed.

Definition lata_QU_0 (Li2 : R -> R) (mQ32 m32 mQ3 m3 lmQ3MR : R) : R :=
    (#(-8) * ((((((#48 * m3) * (Li2 (#1 - (m32 / (pow2 mQ3))))) * (pow3 m3)) * (pow6 mQ3)) + (((#4 * (nlog
      (m32 / (pow2 mQ3)))) * (pow3 m3)) * (((pow3 m3) * (#6 * (pow4 mQ3))) + (m3 * (#3 * (pow6 mQ3)))))) +
      ((m32 - mQ32) * (((((#4 * (#(-1) + lmQ3MR)) * (pow4 m3)) * (#6 * (pow4 mQ3))) - ((pow4 mQ3) * ((#6 *
      ((#3 - (#4 * lmQ3MR)) + (#6 * (pow2 lmQ3MR)))) * (pow4 mQ3)))) + (m32 * ((#6 * ((#9 - (#8 * lmQ3MR)) +
      (#6 * (pow2 lmQ3MR)))) * (pow6 mQ3))))))) / ((#3 * (pow2 (m32 - mQ32))) * (pow6 mQ3)).
Definition lata_QU_1 (Li2 : R -> R) (mQ32 m32 mQ3 m3 lmQ3MR : R) : R :=
    (#(-8) * ((((((#48 * (- (#2 * #1))) * (Li2 (#1 - (m32 / (pow2 mQ3))))) * (pow3 m3)) * (pow6 mQ3)) + (((#4
      * (nlog (m32 / (pow2 mQ3)))) * (pow3 m3)) * (((((#2 * m32) * mQ32) * #1) * (#(-6) * mQ32)) - ((#12 *
      #1) * (pow6 mQ3))))) + ((m32 - mQ32) * ((((((#(-8) * (#(-1) + lmQ3MR)) * mQ32) * #1) * (#6 * mQ32)) *
      (pow3 m3)) + (m3 * (((#48 * (#(-1) + lmQ3MR)) * #1) * (pow6 mQ3))))))) / ((#3 * (pow2 (m32 - mQ32))) *
      (pow6 mQ3)).
Definition lata_QU_2 (Li2 : R -> R) (mQ32 m32 mQ3 m3 lmQ3MR : R) : R :=
    (#(-8) * ((((#4 * (nlog (m32 / (pow2 mQ3)))) * (pow3 m3)) * (((pow3 m3) * ((#(-6) * mQ32) * (#1 * #1))) +
      (m3 * ((#18 * (#1 * #1)) * (pow4 mQ3))))) + ((m32 - mQ32) * (((((#4 * (#(-1) + lmQ3MR)) * (pow4 m3)) *
      ((#(-6) * mQ32) * (#1 * #1))) - ((pow4 mQ3) * (((#12 * (#(-1) + (#6 * lmQ3MR))) * mQ32) * (#1 * #1))))
      + (m32 * (((#12 * (#(-7) + (#8 * lmQ3MR))) * (#1 * #1)) * (pow4 mQ3))))))) / ((#3 * (pow2 (m32 -
      mQ32))) * (pow6 mQ3)).
Definition lata_QU_3 (Li2 : R -> R) (mQ32 m32 mQ3 m3 lmQ3MR : R) : R :=
    (#(-8) * ((((#4 * (nlog (m32 / (pow2 mQ3)))) * (pow3 m3)) * (((((#2 * m32) * mQ32) * #1) * (#1 * #1)) -
      ((#16 * ((#1 * #1) * #1)) * (pow4 mQ3)))) + ((m32 - mQ32) * ((((((#(-8) * (#(-1) + lmQ3MR)) * mQ32) *
      #1) * (- (#1 * #1))) * (pow3 m3)) + (m3 * (((#(-8) * (#(-8) + lmQ3MR)) * ((#1 * #1) * #1)) * (pow4
      mQ3))))))) / ((#3 * (pow2 (m32 - mQ32))) * (pow6 mQ3)).
Definition lata_QU_4 (Li2 : R -> R) (mQ32 m32 mQ3 m3 lmQ3MR : R) : R :=
    (#(-8) * ((((#4 * (nlog (m32 / (pow2 mQ3)))) * (pow3 m3)) * (((pow3 m3) * (((#1 * #1) * #1) * #1)) + (m3
      * (- ((#2 * mQ32) * (((#1 * #1) * #1) * #1)))))) + ((m32 - mQ32) * (((((#4 * (#(-1) + lmQ3MR)) * (pow4
      m3)) * (((#1 * #1) * #1) * #1)) - ((pow4 mQ3) * ((#1 - (#6 * lmQ3MR)) * (((#1 * #1) * #1) * #1)))) +
      (m32 * (((#9 - (#10 * lmQ3MR)) * mQ32) * (((#1 * #1) * #1) * #1))))))) / ((#3 * (pow2 (m32 - mQ32))) *
      (pow6 mQ3)).
Definition lata_QU_5 (Li2 : R -> R) (mQ32 m32 mQ3 m3 lmQ3MR : R) : R :=
    (#(-8) * ((((#4 * (nlog (m32 / (pow2 mQ3)))) * (pow3 m3)) * (mQ32 * ((((#1 * #1) * #1) * #1) * #1))) +
      ((m32 - mQ32) * (m3 * (- ((#4 * mQ32) * ((((#1 * #1) * #1) * #1) * #1))))))) / ((#3 * (pow2 (m32 -
      mQ32))) * (pow6 mQ3)).
Lemma lata_QU_poly (Li2 : R -> R) (mQ32 m32 mQ3 m3 Xt lmQ3MR : R) : lata_QU Li2 mQ32 m32 mQ3 m3 Xt lmQ3MR = (lata_QU_0 Li2 mQ32 m32 mQ3 m3 lmQ3MR * Xt^0 + lata_QU_1 Li2 mQ32 m32 mQ3 m3 lmQ3MR * Xt^1 + lata_QU_2 Li2 mQ32 m32 mQ3 m3 lmQ3MR * Xt^2 + lata_QU_3 Li2 mQ32 m32 mQ3 m3 lmQ3MR * Xt^3 + lata_QU_4 Li2 mQ32 m32 mQ3 m3 lmQ3MR * Xt^4 + lata_QU_5 Li2 mQ32 m32 mQ3 m3 lmQ3MR * Xt^5)%R.
Proof. unfold lata_QU, lata_QU_0, lata_QU_1, lata_QU_2, lata_QU_3, lata_QU_4, lata_QU_5. rewrite ?(p2 Xt), ?(p3 Xt), ?(p4 Xt), ?(p5 Xt). unR. unfold Rdiv. first [ring|unfold pow5, pow4, pow3, pow2; unR; ring]. Qed.

Definition lata_QM_0 (Li2 : R -> R) (mQ32 mU32 mQ3 mU3 lmQ3MR : R) : R :=
    #4 * (((((((((#(-23) + ((#8 * ((#3 * mQ32) - (#3 * mU32))) / (mQ32 - mU32))) - (#24 * (pow2 lmQ3MR))) +
      (((((#(-19) * mQ32) * mU32) + (#8 * (pow4 mQ3))) + (#7 * (pow4 mU3))) / ((mQ32 * mU32) - (pow4 mU3))))
      - (((#8 * (Li2 (#1 - (mQ32 / (pow2 mU3))))) * (#2 * (pow4 mQ3))) / (pow2 (mQ32 - mU32)))) + (((nlog
      (mU32 / (pow2 mQ3))) * (pow3 (mQ32 - mU32))) / (pow3 (mQ32 - mU32)))) + ((#8 * lmQ3MR) * ((#1 - (mQ32 /
      (pow2 mU3))) - (((nlog (mU32 / (pow2 mQ3))) * (#3 * (pow3 (mQ32 - mU32)))) / (pow3 (mQ32 - mU32)))))) +
      (((nlog (mU32 / (pow2 mQ3))) * ((pow2 (mQ32 - mU32)) * ((((#(-26) * mQ32) * mU32) + (#27 * (pow4 mQ3)))
      + (#11 * (pow4 mU3))))) / (pow4 (mQ32 - mU32)))) - (((#2 * (nlog (mU32 / (pow2 mQ3)))) * (#3 * (pow4
      (mQ32 - mU32)))) / (pow4 (mQ32 - mU32)))) - (((#4 * (pow2 (nlog (mU32 / (pow2 mQ3))))) * ((pow3 (mQ32 -
      mU32)) * ((((#(-4) * mQ32) * mU32) + (#3 * (pow4 mQ3))) + (#2 * (pow4 mU3))))) / (pow5 (mQ32 - mU32)))).
Definition lata_QM_1 (Li2 : R -> R) (mQ32 mU32 mQ3 mU3 lmQ3MR : R) : R :=
    #4 * (((((((#8 * (- ((#8 * mQ3) * #1))) / (mQ32 - mU32)) - (((#8 * (Li2 (#1 - (mQ32 / (pow2 mU3))))) *
      ((#8 * #1) * (pow3 mQ3))) / (pow2 (mQ32 - mU32)))) + ((#8 * lmQ3MR) * (- (((nlog (mU32 / (pow2 mQ3))) *
      (((#4 * mQ3) * #1) * (pow2 (mQ32 - mU32)))) / (pow3 (mQ32 - mU32)))))) + (((nlog (mU32 / (pow2 mQ3))) *
      (((#32 * mQ3) * #1) * (pow3 (mQ32 - mU32)))) / (pow4 (mQ32 - mU32)))) - (((#2 * (nlog (mU32 / (pow2
      mQ3)))) * (((#(-8) * mQ3) * #1) * (pow3 (mQ32 - mU32)))) / (pow4 (mQ32 - mU32)))) - (((#4 * (pow2 (nlog
      (mU32 / (pow2 mQ3))))) * (((#4 * #1) * ((- (mQ3 * mU32)) + (#2 * (pow3 mQ3)))) * (pow3 (mQ32 - mU32))))
      / (pow5 (mQ32 - mU32)))).
Definition lata_QM_2 (Li2 : R -> R) (mQ32 mU32 mQ3 mU3 lmQ3MR : R) : R :=
    #4 * (((((((- ((#16 * (#1 * #1)) / (mQ32 - mU32))) - ((#16 * (#1 * #1)) / (pow2 mU3))) + (((nlog (mU32 /
      (pow2 mQ3))) * ((#(-2) * (pow2 (mQ32 - mU32))) * (#1 * #1))) / (pow3 (mQ32 - mU32)))) + ((#8 * lmQ3MR)
      * (((#2 * (#1 * #1)) / (pow2 mU3)) - (((nlog (mU32 / (pow2 mQ3))) * (- ((#6 * (pow2 (mQ32 - mU32))) *
      (#1 * #1)))) / (pow3 (mQ32 - mU32)))))) + (((nlog (mU32 / (pow2 mQ3))) * (((#(-6) * ((#9 * mQ32) - (#5
      * mU32))) * (pow2 (mQ32 - mU32))) * (#1 * #1))) / (pow4 (mQ32 - mU32)))) - (((#2 * (nlog (mU32 / (pow2
      mQ3)))) * (- ((#6 * (#1 * #1)) * (pow3 (mQ32 - mU32))))) / (pow4 (mQ32 - mU32)))) - (((#4 * (pow2 (nlog
      (mU32 / (pow2 mQ3))))) * (- (((#2 * (pow2 (mQ32 - mU32))) * (#1 * #1)) * ((((#(-6) * mQ32) * mU32) +
      (pow4 mQ3)) + (#4 * (pow4 mU3)))))) / (pow5 (mQ32 - mU32)))).
Definition lata_QM_3 (Li2 : R -> R) (mQ32 mU32 mQ3 mU3 lmQ3MR : R) : R :=
    #4 * ((((((- (((#128 * mQ3) * ((#1 * #1) * #1)) / (pow2 (mQ32 - mU32)))) - (((#8 * (Li2 (#1 - (mQ32 /
      (pow2 mU3))))) * ((#4 * mQ3) * ((#1 * #1) * #1))) / (pow2 (mQ32 - mU32)))) + ((#8 * lmQ3MR) * ((((#8 *
      mQ3) * ((#1 * #1) * #1)) / (pow2 (mQ32 - mU32))) - (((nlog (mU32 / (pow2 mQ3))) * ((- (((#4 * mQ3) *
      mU32) * ((#1 * #1) * #1))) - ((#4 * (pow3 mQ3)) * ((#1 * #1) * #1)))) / (pow3 (mQ32 - mU32)))))) +
      (((nlog (mU32 / (pow2 mQ3))) * (- ((((#32 * mQ3) * (mQ32 - mU32)) * (mQ32 + (#3 * mU32))) * ((#1 * #1)
      * #1)))) / (pow4 (mQ32 - mU32)))) - (((#2 * (nlog (mU32 / (pow2 mQ3)))) * (((#16 * mQ3) * (pow2 (mQ32 -
      mU32))) * ((#1 * #1) * #1))) / (pow4 (mQ32 - mU32)))) - (((#4 * (pow2 (nlog (mU32 / (pow2 mQ3))))) *
      ((((#4 * mQ3) * (mQ32 + mU32)) * (pow2 (mQ32 - mU32))) * ((#1 * #1) * #1))) / (pow5 (mQ32 - mU32)))).
Definition lata_QM_4 (Li2 : R -> R) (mQ32 mU32 mQ3 mU3 lmQ3MR : R) : R :=
    #4 * ((((((((- ((#10 * (((#1 * #1) * #1) * #1)) / (pow2 (mQ32 - mU32)))) + (((#2 * ((((#27 * mQ32) *
      mU32) + (#4 * (pow4 mQ3))) - (#27 * (pow4 mU3)))) * (((#1 * #1) * #1) * #1)) / ((pow2 mU3) * (pow3
      (mQ32 - mU32))))) - (((#8 * (Li2 (#1 - (mQ32 / (pow2 mU3))))) * (((#1 * #1) * #1) * #1)) / (pow2 (mQ32
      - mU32)))) + (((nlog (mU32 / (pow2 mQ3))) * ((mQ32 + mU32) * (((#1 * #1) * #1) * #1))) / (pow3 (mQ32 -
      mU32)))) + ((#8 * lmQ3MR) * ((- (((mQ32 + (#7 * mU32)) * (((#1 * #1) * #1) * #1)) / (pow2 ((- (mQ32 *
      mU3)) + (pow3 mU3))))) - (((nlog (mU32 / (pow2 mQ3))) * (((#5 * mQ32) * (((#1 * #1) * #1) * #1)) + ((#3
      * mU32) * (((#1 * #1) * #1) * #1)))) / (pow3 (mQ32 - mU32)))))) + (((nlog (mU32 / (pow2 mQ3))) *
      (((((#36 * mQ32) * mU32) + (#43 * (pow4 mQ3))) - (#63 * (pow4 mU3))) * (((#1 * #1) * #1) * #1))) /
      (pow4 (mQ32 - mU32)))) - (((#2 * (nlog (mU32 / (pow2 mQ3)))) * ((#3 * ((pow4 mQ3) - (pow4 mU3))) *
      (((#1 * #1) * #1) * #1))) / (pow4 (mQ32 - mU32)))) - (((#4 * (pow2 (nlog (mU32 / (pow2 mQ3))))) *
      ((((#1 * #1) * #1) * #1) * (((((#(-10) * mU32) * (pow4 mQ3)) + (mQ32 * (pow4 mU3))) + (#2 * (pow6
      mQ3))) + (#5 * (pow6 mU3))))) / (pow5 (mQ32 - mU32)))).
Definition lata_QM_5 (Li2 : R -> R) (mQ32 mU32 mQ3 mU3 lmQ3MR : R) : R :=
    #4 * ((((((#32 * mQ3) * ((((#1 * #1) * #1) * #1) * #1)) / (pow3 (mQ32 - mU32))) + (((nlog (mU32 / (pow2
      mQ3))) * (((#32 * mQ3) * mU32) * ((((#1 * #1) * #1) * #1) * #1))) / (pow4 (mQ32 - mU32)))) - (((#2 *
      (nlog (mU32 / (pow2 mQ3)))) * (- (((#8 * mQ3) * (mQ32 + mU32)) * ((((#1 * #1) * #1) * #1) * #1)))) /
      (pow4 (mQ32 - mU32)))) - (((#4 * (pow2 (nlog (mU32 / (pow2 mQ3))))) * (- ((((#4 * mQ3) * mU32) * (mQ32
      + mU32)) * ((((#1 * #1) * #1) * #1) * #1)))) / (pow5 (mQ32 - mU32)))).
Lemma lata_QM_poly (Li2 : R -> R) (mQ32 mU32 mQ3 mU3 Xt lmQ3MR : R) : lata_QM Li2 mQ32 mU32 mQ3 mU3 Xt lmQ3MR = (lata_QM_0 Li2 mQ32 mU32 mQ3 mU3 lmQ3MR * Xt^0 + lata_QM_1 Li2 mQ32 mU32 mQ3 mU3 lmQ3MR * Xt^1 + lata_QM_2 Li2 mQ32 mU32 mQ3 mU3 lmQ3MR * Xt^2 + lata_QM_3 Li2 mQ32 mU32 mQ3 mU3 lmQ3MR * Xt^3 + lata_QM_4 Li2 mQ32 mU32 mQ3 mU3 lmQ3MR * Xt^4 + lata_QM_5 Li2 mQ32 mU32 mQ3 mU3 lmQ3MR * Xt^5)%R.
Proof. unfold lata_QM, lata_QM_0, lata_QM_1, lata_QM_2, lata_QM_3, lata_QM_4, lata_QM_5. rewrite ?(p2 Xt), ?(p3 Xt), ?(p4 Xt), ?(p5 Xt). unR. unfold Rdiv. first [ring|unfold pow5, pow4, pow3, pow2; unR; ring]. Qed.

Definition lata_UM_0 (Li2 : R -> R) (mQ32 mU32 mQ3 mU3 lmQ3MR : R) : R :=
    (#(-8) * (((((((#4 * mQ32) * (Li2 (#1 - (mU32 / (pow2 mQ3))))) * (pow3 (mQ32 - mU32))) * (#2 * (pow4
      mU3))) + ((pow2 (mQ32 - mU32)) * (((((((#(-4) * (#(-1) + lmQ3MR)) * (mU32 * mU32)) * (pow4 mU3)) +
      ((pow4 mQ3) * (((#25 - (#24 * lmQ3MR)) + (#36 * (pow2 lmQ3MR))) * (pow4 mU3)))) + ((mQ32 * mU3) *
      (((#(-17) + (#16 * lmQ3MR)) - (#12 * (pow2 lmQ3MR))) * (pow5 mU3)))) - ((mU32 * ((#15 - (#16 * lmQ3MR))
      + (#36 * (pow2 lmQ3MR)))) * (pow6 mQ3))) + (((#3 - (#4 * lmQ3MR)) + (#12 * (pow2 lmQ3MR))) * (pow8
      mQ3))))) + (((#2 * mQ32) * (pow2 (nlog (mU32 / (pow2 mQ3))))) * (((((((mU3 * (pow4 mQ3)) * (- (#23 *
      (pow5 mU3)))) + ((mQ32 * (pow3 mU3)) * (#13 * (pow5 mU3)))) + ((#21 * (pow4 mU3)) * (pow6 mQ3))) - ((#3
      * (pow4 mU3)) * (pow6 mU3))) - ((#2 * (#5 * mU32)) * (pow8 mQ3))) + (#2 * (power10 mQ3))))) + (((mQ32 -
      mU32) * (nlog (mU32 / (pow2 mQ3)))) * (((((((mQ32 * (pow3 mU3)) * ((#3 * (#(-3) + (#4 * lmQ3MR))) *
      (pow5 mU3))) + (((#2 * mU3) * (pow4 mQ3)) * ((#5 - (#24 * lmQ3MR)) * (pow5 mU3)))) + (((#2 * (#(-5) +
      (#36 * lmQ3MR))) * (pow4 mU3)) * (pow6 mQ3))) + ((#4 * (mU32 * mU32)) * (pow6 mU3))) + ((#2 * ((#3 -
      (#24 * lmQ3MR)) * mU32)) * (pow8 mQ3))) + ((#(-1) + (#12 * lmQ3MR)) * (power10 mQ3)))))) / ((pow2 mQ3)
      * (pow5 (mQ32 - mU32))).
Definition lata_UM_1 (Li2 : R -> R) (mQ32 mU32 mQ3 mU3 lmQ3MR : R) : R :=
    (#(-8) * (((((((#4 * mQ32) * (Li2 (#1 - (mU32 / (pow2 mQ3))))) * (pow3 (mQ32 - mU32))) * ((#8 * #1) *
      (pow3 mU3))) + ((pow2 (mQ32 - mU32)) * ((((pow4 mQ3) * ((#64 * #1) * (pow3 mU3))) + ((mQ32 * mU3) * (-
      ((#32 * #1) * (pow4 mU3))))) - (((#32 * mU3) * #1) * (pow6 mQ3))))) + (((#2 * mQ32) * (pow2 (nlog (mU32
      / (pow2 mQ3))))) * (((((mU3 * (pow4 mQ3)) * ((#12 * #1) * (pow4 mU3))) + ((mQ32 * (pow3 mU3)) * (- ((#4
      * #1) * (pow4 mU3))))) + ((- ((#12 * #1) * (pow3 mU3))) * (pow6 mQ3))) - ((#2 * (- ((#2 * mU3) * #1)))
      * (pow8 mQ3))))) + (((mQ32 - mU32) * (nlog (mU32 / (pow2 mQ3)))) * (((((mQ32 * (pow3 mU3)) * (- (((#8 *
      (#(-3) + (#2 * lmQ3MR))) * #1) * (pow4 mU3)))) + (((#2 * mU3) * (pow4 mQ3)) * (((#12 * (#(-3) + (#2 *
      lmQ3MR))) * #1) * (pow4 mU3)))) + ((((#24 * (#3 - (#2 * lmQ3MR))) * #1) * (pow3 mU3)) * (pow6 mQ3))) +
      ((#2 * (((#4 * (#(-3) + (#2 * lmQ3MR))) * mU3) * #1)) * (pow8 mQ3)))))) / ((pow2 mQ3) * (pow5 (mQ32 -
      mU32))).
Definition lata_UM_2 (Li2 : R -> R) (mQ32 mU32 mQ3 mU3 lmQ3MR : R) : R :=
    (#(-8) * ((((pow2 (mQ32 - mU32)) * ((((((#(-4) * (#(-1) + lmQ3MR)) * ((mU32 * (- (#1 * #1))) + ((- (#1 *
      #1)) * mU32))) * (pow4 mU3)) + ((pow4 mQ3) * (((#8 * (#(-1) + (#3 * lmQ3MR))) * mU32) * (#1 * #1)))) +
      ((mQ32 * mU3) * (((#(-8) * (#(-2) + (#3 * lmQ3MR))) * (#1 * #1)) * (pow3 mU3)))) - (((#8 * lmQ3MR) *
      (#1 * #1)) * (pow6 mQ3)))) + (((#2 * mQ32) * (pow2 (nlog (mU32 / (pow2 mQ3))))) * ((((((mU3 * (pow4
      mQ3)) * ((#(-38) * (#1 * #1)) * (pow3 mU3))) + ((mQ32 * (pow3 mU3)) * ((#32 * (#1 * #1)) * (pow3
      mU3)))) + (((#20 * mU32) * (#1 * #1)) * (pow6 mQ3))) - (((#10 * mU32) * (#1 * #1)) * (pow6 mU3))) -
      ((#2 * (#2 * (#1 * #1))) * (pow8 mQ3))))) + (((mQ32 - mU32) * (nlog (mU32 / (pow2 mQ3)))) * ((((((mQ32
      * (pow3 mU3)) * (((#2 * (#5 + (#12 * lmQ3MR))) * (#1 * #1)) * (pow3 mU3))) + (((#2 * mU3) * (pow4 mQ3))
      * (((#3 * (#1 - (#12 * lmQ3MR))) * (#1 * #1)) * (pow3 mU3)))) + ((((#2 * (#(-5) + (#36 * lmQ3MR))) *
      mU32) * (#1 * #1)) * (pow6 mQ3))) + ((#4 * ((mU32 * (- (#1 * #1))) + ((- (#1 * #1)) * mU32))) * (pow6
      mU3))) + ((#2 * ((#1 - (#12 * lmQ3MR)) * (#1 * #1))) * (pow8 mQ3)))))) / ((pow2 mQ3) * (pow5 (mQ32 -
      mU32))).
Definition lata_UM_3 (Li2 : R -> R) (mQ32 mU32 mQ3 mU3 lmQ3MR : R) : R :=
    (#(-8) * (((((((#4 * mQ32) * (Li2 (#1 - (mU32 / (pow2 mQ3))))) * (pow3 (mQ32 - mU32))) * ((#4 * mU3) *
      ((#1 * #1) * #1))) + ((pow2 (mQ32 - mU32)) * (((pow4 mQ3) * (- (((#32 * (#(-2) + lmQ3MR)) * mU3) * ((#1
      * #1) * #1)))) + ((mQ32 * mU3) * (((#32 * (#(-2) + lmQ3MR)) * mU32) * ((#1 * #1) * #1)))))) + (((#2 *
      mQ32) * (pow2 (nlog (mU32 / (pow2 mQ3))))) * (((((mU3 * (pow4 mQ3)) * ((#12 * mU32) * ((#1 * #1) *
      #1))) + ((mQ32 * (pow3 mU3)) * ((#12 * mU32) * ((#1 * #1) * #1)))) + ((- ((#12 * mU3) * ((#1 * #1) *
      #1))) * (pow6 mQ3))) - (((#12 * mU3) * ((#1 * #1) * #1)) * (pow6 mU3))))) + (((mQ32 - mU32) * (nlog
      (mU32 / (pow2 mQ3)))) * ((((mQ32 * (pow3 mU3)) * (((#16 * (#(-4) + lmQ3MR)) * mU32) * ((#1 * #1) *
      #1))) + (((#2 * mU3) * (pow4 mQ3)) * ((#32 * mU32) * ((#1 * #1) * #1)))) + ((- (((#16 * lmQ3MR) * mU3)
      * ((#1 * #1) * #1))) * (pow6 mQ3)))))) / ((pow2 mQ3) * (pow5 (mQ32 - mU32))).
Definition lata_UM_4 (Li2 : R -> R) (mQ32 mU32 mQ3 mU3 lmQ3MR : R) : R :=
    (#(-8) * (((((((#4 * mQ32) * (Li2 (#1 - (mU32 / (pow2 mQ3))))) * (pow3 (mQ32 - mU32))) * (((#1 * #1) *
      #1) * #1)) + ((pow2 (mQ32 - mU32)) * (((((#(-4) * (#(-1) + lmQ3MR)) * ((- (#1 * #1)) * (- (#1 * #1))))
      * (pow4 mU3)) + ((pow4 mQ3) * ((#2 * (#(-11) + (#14 * lmQ3MR))) * (((#1 * #1) * #1) * #1)))) + ((mQ32 *
      mU3) * (((#2 * (#11 - (#12 * lmQ3MR))) * mU3) * (((#1 * #1) * #1) * #1)))))) + (((#2 * mQ32) * (pow2
      (nlog (mU32 / (pow2 mQ3))))) * (((((mU3 * (pow4 mQ3)) * (- ((#3 * mU3) * (((#1 * #1) * #1) * #1)))) +
      ((mQ32 * (pow3 mU3)) * (- ((#4 * mU3) * (((#1 * #1) * #1) * #1))))) + ((((#1 * #1) * #1) * #1) * (pow6
      mQ3))) - ((- (#8 * (((#1 * #1) * #1) * #1))) * (pow6 mU3))))) + (((mQ32 - mU32) * (nlog (mU32 / (pow2
      mQ3)))) * (((((mQ32 * (pow3 mU3)) * (((#39 - (#20 * lmQ3MR)) * mU3) * (((#1 * #1) * #1) * #1))) + (((#2
      * mU3) * (pow4 mQ3)) * (((#(-17) + (#4 * lmQ3MR)) * mU3) * (((#1 * #1) * #1) * #1)))) + (((#(-1) + (#12
      * lmQ3MR)) * (((#1 * #1) * #1) * #1)) * (pow6 mQ3))) + ((#4 * ((- (#1 * #1)) * (- (#1 * #1)))) * (pow6
      mU3)))))) / ((pow2 mQ3) * (pow5 (mQ32 - mU32))).
Definition lata_UM_5 (Li2 : R -> R) (mQ32 mU32 mQ3 mU3 lmQ3MR : R) : R :=
    (#(-8) * ((((pow2 (mQ32 - mU32)) * ((mQ32 * mU3) * (#16 * ((((#1 * #1) * #1) * #1) * #1)))) + (((#2 *
      mQ32) * (pow2 (nlog (mU32 / (pow2 mQ3))))) * (((mU3 * (pow4 mQ3)) * (#4 * ((((#1 * #1) * #1) * #1) *
      #1))) + ((mQ32 * (pow3 mU3)) * (#4 * ((((#1 * #1) * #1) * #1) * #1)))))) + (((mQ32 - mU32) * (nlog
      (mU32 / (pow2 mQ3)))) * (((mQ32 * (pow3 mU3)) * (#8 * ((((#1 * #1) * #1) * #1) * #1))) + (((#2 * mU3) *
      (pow4 mQ3)) * (#12 * ((((#1 * #1) * #1) * #1) * #1))))))) / ((pow2 mQ3) * (pow5 (mQ32 - mU32))).
Lemma lata_UM_poly (Li2 : R -> R) (mQ32 mU32 mQ3 mU3 Xt lmQ3MR : R) : lata_UM Li2 mQ32 mU32 mQ3 mU3 Xt lmQ3MR = (lata_UM_0 Li2 mQ32 mU32 mQ3 mU3 lmQ3MR * Xt^0 + lata_UM_1 Li2 mQ32 mU32 mQ3 mU3 lmQ3MR * Xt^1 + lata_UM_2 Li2 mQ32 mU32 mQ3 mU3 lmQ3MR * Xt^2 + lata_UM_3 Li2 mQ32 mU32 mQ3 mU3 lmQ3MR * Xt^3 + lata_UM_4 Li2 mQ32 mU32 mQ3 mU3 lmQ3MR * Xt^4 + lata_UM_5 Li2 mQ32 mU32 mQ3 mU3 lmQ3MR * Xt^5)%R.
Proof. unfold lata_UM, lata_UM_0, lata_UM_1, lata_UM_2, lata_UM_3, lata_UM_4, lata_UM_5. rewrite ?(p2 Xt), ?(p3 Xt), ?(p4 Xt), ?(p5 Xt). unR. unfold Rdiv. first [ring|unfold pow5, pow4, pow3, pow2; unR; ring]. Qed.

Definition lata_QUM_0 (mQ32 mQ3 lmQ3MR : R) : R :=
    (#(-8) * ((#36 * (pow2 lmQ3MR)) * (pow5 mQ3))) / (#3 * (pow5 mQ3)).
Definition lata_QUM_1 (mQ32 mQ3 lmQ3MR : R) : R :=
    (#(-8) * (((((#(-2) * lmQ3MR) * mQ3) * #1) * (#24 * (pow3 mQ3))) + (#1 * (#24 * (pow4 mQ3))))) / (#3 *
      (pow5 mQ3)).
Definition lata_QUM_2 (mQ32 mQ3 lmQ3MR : R) : R :=
    (#(-8) * (((((#(-2) * lmQ3MR) * mQ3) * #1) * ((#(-24) * mQ32) * #1)) + (#1 * ((#12 * #1) * (pow3 mQ3)))))
      / (#3 * (pow5 mQ3)).
Definition lata_QUM_3 (mQ32 mQ3 lmQ3MR : R) : R :=
    (#(-8) * (((((#(-2) * lmQ3MR) * mQ3) * #1) * (- ((#4 * mQ3) * (#1 * #1)))) + (#1 * ((#(-28) * mQ32) * (#1
      * #1))))) / (#3 * (pow5 mQ3)).
Definition lata_QUM_4 (mQ32 mQ3 lmQ3MR : R) : R :=
    (#(-8) * (((((#(-2) * lmQ3MR) * mQ3) * #1) * ((#1 * #1) * #1)) + (#1 * (- (mQ3 * ((#1 * #1) * #1)))))) /
      (#3 * (pow5 mQ3)).
Definition lata_QUM_5 (mQ32 mQ3 lmQ3MR : R) : R :=
    (#(-8) * (#1 * (#2 * (((#1 * #1) * #1) * #1)))) / (#3 * (pow5 mQ3)).
Lemma lata_QUM_poly (mQ32 mQ3 Xt lmQ3MR : R) : lata_QUM mQ32 mQ3 Xt lmQ3MR = (lata_QUM_0 mQ32 mQ3 lmQ3MR * Xt^0 + lata_QUM_1 mQ32 mQ3 lmQ3MR * Xt^1 + lata_QUM_2 mQ32 mQ3 lmQ3MR * Xt^2 + lata_QUM_3 mQ32 mQ3 lmQ3MR * Xt^3 + lata_QUM_4 mQ32 mQ3 lmQ3MR * Xt^4 + lata_QUM_5 mQ32 mQ3 lmQ3MR * Xt^5)%R.
Proof. unfold lata_QUM, lata_QUM_0, lata_QUM_1, lata_QUM_2, lata_QUM_3, lata_QUM_4, lata_QUM_5. rewrite ?(p2 Xt), ?(p3 Xt), ?(p4 Xt), ?(p5 Xt). unR. unfold Rdiv. first [ring|unfold pow5, pow4, pow3, pow2; unR; ring]. Qed.

Definition xtt_G_6 (Li2 : R -> R) (mQ32 mU32 m32 mQ3 mU3 m3 msq2 msq lmQ3MR : R) : R :=
    let logQ3U3 := nlog (mQ32 / mU32) in
    let logQ3m3 := nlog (mQ32 / m32) in
    let logQ3mq := nlog (mQ32 / msq2) in
    (((#1280 * #1) * (((#(-2) * mQ32) + (#2 * mU32)) + ((mQ32 + mU32) * logQ3U3))) * (pow2 ((((m3 * (m32 -
      mQ32)) * mU32) * logQ3U3) + (((mQ32 - mU32) * logQ3m3) * (pow3 m3))))) / (((#3 * (pow2 (m32 - mQ32))) *
      (pow2 (m32 - mU32))) * (pow5 (mQ32 - mU32))).
Definition xtt_G_5 (Li2 : R -> R) (mQ32 mU32 m32 mQ3 mU3 m3 msq2 msq lmQ3MR : R) : R :=
    let logQ3U3 := nlog (mQ32 / mU32) in
    let logQ3m3 := nlog (mQ32 / m32) in
    let logQ3mq := nlog (mQ32 / msq2) in
    ((#(-32) * #1) * (((((#32 * (pow2 (m32 - mQ32))) * (pow2 (m32 - mU32))) * ((((m3 * (m32 - mQ32)) * mU32)
      * logQ3U3) + (((mQ32 - mU32) * logQ3m3) * (pow3 m3)))) * ((((((((((((((((((((((((((((((((((((mQ32 *
      (mQ32 - mU32)) * mU32) * (((#(-2) * m32) + mQ32) + mU32)) * (Li2 (#1 - (m32 / mQ32)))) + ((m32 * mU32)
      * (pow4 mQ3))) - (((lmQ3MR * m32) * mU32) * (pow4 mQ3))) + (((m32 * mU32) * logQ3m3) * (pow4 mQ3))) +
      ((((#2 * m32) * mU32) * logQ3U3) * (pow4 mQ3))) - (((((#2 * lmQ3MR) * m32) * mU32) * logQ3U3) * (pow4
      mQ3))) + (((m32 * mU32) * (pow2 logQ3U3)) * (pow4 mQ3))) + ((m32 * mQ32) * (pow4 mU3))) - (((lmQ3MR *
      m32) * mQ32) * (pow4 mU3))) + (((m32 * mQ32) * logQ3m3) * (pow4 mU3))) - ((((#2 * m32) * mQ32) *
      logQ3U3) * (pow4 mU3))) + (((((#2 * lmQ3MR) * m32) * mQ32) * logQ3U3) * (pow4 mU3))) - (((m32 * mQ32) *
      (pow2 logQ3U3)) * (pow4 mU3))) + ((#12 * (pow4 mQ3)) * (pow4 mU3))) - (((#8 * lmQ3MR) * (pow4 mQ3)) *
      (pow4 mU3))) + (((#4 * logQ3U3) * (pow4 mQ3)) * (pow4 mU3))) - (((#2 * (pow2 logQ3U3)) * (pow4 mQ3)) *
      (pow4 mU3))) + (((mQ32 * mU32) * (Li2 (#1 - (m32 / mU32)))) * ((((#2 * m32) * (mQ32 - mU32)) - (pow4
      mQ3)) + (pow4 mU3)))) - (m32 * (pow6 mQ3))) + ((lmQ3MR * m32) * (pow6 mQ3))) - ((#6 * mU32) * (pow6
      mQ3))) + (((#4 * lmQ3MR) * mU32) * (pow6 mQ3))) - ((m32 * logQ3m3) * (pow6 mQ3))) + (((#3 * mU32) *
      logQ3U3) * (pow6 mQ3))) - ((((#2 * lmQ3MR) * mU32) * logQ3U3) * (pow6 mQ3))) - (m32 * (pow6 mU3))) +
      ((lmQ3MR * m32) * (pow6 mU3))) - ((#6 * mQ32) * (pow6 mU3))) + (((#4 * lmQ3MR) * mQ32) * (pow6 mU3))) -
      ((m32 * logQ3m3) * (pow6 mU3))) - (((#7 * mQ32) * logQ3U3) * (pow6 mU3))) + ((((#2 * lmQ3MR) * mQ32) *
      logQ3U3) * (pow6 mU3))) - (((#2 * mQ32) * (pow2 logQ3U3)) * (pow6 mU3)))) - (((mQ32 * mU32) * ((#2 *
      (mQ32 - mU32)) - ((mQ32 + mU32) * logQ3U3))) * ((((((((((((((((((((((#(-60) * m3) * (m32 - mQ32)) *
      (m32 - msq2)) * (m32 - mU32)) * (((mQ32 * (msq2 - (#2 * mU32))) + (msq2 * mU32)) + (m32 * ((mQ32 - (#2
      * msq2)) + mU32)))) * (Li2 (#1 - (m32 / msq2)))) * (pow2 (mQ32 - mU32))) - ((((((#60 * m3) * msq2) *
      (lmQ3MR - logQ3mq)) * (pow2 (m32 - mQ32))) * (pow2 (m32 - mU32))) * (pow2 (mQ32 - mU32)))) - ((((((#30
      * m3) * (m32 - mQ32)) * (m32 - mU32)) * (mQ32 - mU32)) * (((pow2 (mQ32 - msq2)) * (pow2 (m32 - mU32)))
      - ((pow2 (m32 - mQ32)) * (pow2 (msq2 - mU32))))) * (pow2 (lmQ3MR - logQ3mq)))) + ((((#2 * (pow2 (m32 -
      mQ32))) * (pow2 (m32 - mU32))) * (pow2 (mQ32 - mU32))) * (((#(-3) * m3) * ((mQ32 + (#10 * msq2)) +
      mU32)) + (#14 * (pow3 m3))))) + ((((((#60 * m3) * (m32 - mU32)) * (mQ32 - mU32)) * (Li2 (#1 - (msq2 /
      mU32)))) * (pow2 (msq2 - mU32))) * (pow3 (m32 - mQ32)))) - ((((((#60 * m3) * (m32 - mQ32)) * (mQ32 -
      mU32)) * (Li2 (#1 - (msq2 / mQ32)))) * (pow2 (mQ32 - msq2))) * (pow3 (m32 - mU32)))) + ((((((#2 * m3) *
      (m32 - mQ32)) * (m32 - mU32)) * (Li2 (#1 - (mQ32 / mU32)))) * (pow3 (mQ32 - mU32))) * (((((- (mQ32 *
      mU32)) - ((#5 * m32) * (mQ32 + mU32))) + (#5 * (pow4 m3))) + (#3 * (pow4 mQ3))) + (#3 * (pow4 mU3)))))
      - ((((((#2 * m3) * (m32 - mQ32)) * (mQ32 - mU32)) * (Li2 (#1 - (m32 / mU32)))) * (pow3 (m32 - mU32))) *
      ((((((#(-7) * mQ32) * mU32) + (m32 * ((#(-37) * mQ32) + mU32))) + (#18 * (pow4 m3))) + (#22 * (pow4
      mQ3))) + (#3 * (pow4 mU3))))) + ((((((#2 * m3) * (m32 - mU32)) * (mQ32 - mU32)) * (Li2 (#1 - (m32 /
      mQ32)))) * (pow3 (m32 - mQ32))) * (((((m32 * (mQ32 - (#37 * mU32))) - ((#7 * mQ32) * mU32)) + (#18 *
      (pow4 m3))) + (#3 * (pow4 mQ3))) + (#22 * (pow4 mU3))))) + ((((#12 * m3) * (mQ32 - mU32)) * (((m32 *
      (mQ32 - mU32)) * logQ3m3) + (((m32 - mQ32) * mU32) * logQ3U3))) * ((- ((m32 - mQ32) * (((((m32 - mQ32)
      * ((#2 * m32) - mU32)) * mU32) * logQ3U3) + ((m32 - mU32) * (((((#1 + (#2 * lmQ3MR)) * mQ32) * mU32) -
      (((#2 * lmQ3MR) * m32) * (mQ32 + mU32))) + ((#(-1) + (#2 * lmQ3MR)) * (pow4 m3))))))) + ((logQ3m3 *
      (pow4 m3)) * (((((#(-2) * m32) * (mQ32 + mU32)) + (#2 * (pow4 m3))) + (pow4 mQ3)) + (pow4 mU3)))))) -
      ((((((#2 * m3) * (m32 - mU32)) * (mQ32 - mU32)) * (lmQ3MR - logQ3U3)) * (pow2 (m32 - mQ32))) *
      (((((((((((((#(-53) * m32) * mQ32) * mU32) - (((#30 * m32) * msq2) * mU32)) + (((#30 * mQ32) * msq2) *
      mU32)) - ((#16 * mQ32) * (pow4 m3))) + ((#55 * mU32) * (pow4 m3))) + ((#3 * mU32) * (pow4 mQ3))) -
      ((#61 * m32) * (pow4 mU3))) + ((#53 * mQ32) * (pow4 mU3))) + (((#5 * (m32 - mQ32)) * (lmQ3MR -
      logQ3mq)) * ((((- (m32 * mU32)) - ((#12 * msq2) * mU32)) + (#6 * (pow4 msq))) + (pow4 mU3)))) + (#16 *
      (pow6 m3))) + (#3 * (pow6 mU3))))) - (((pow2 (lmQ3MR - logQ3U3)) * (pow3 (m32 - mQ32))) * ((((-
      (((((#69 * mQ32) * mU32) + (pow4 mQ3)) - (#86 * (pow4 mU3))) * (pow5 m3))) + ((pow3 m3) * (((((((#11 *
      mU32) * (pow4 mQ3)) + ((#30 * mU32) * (pow4 msq))) - ((#60 * msq2) * (pow4 mU3))) + (mQ32 * ((((#60 *
      msq2) * mU32) - (#30 * (pow4 msq))) + (#59 * (pow4 mU3))))) - (#3 * (pow6 mQ3))) - (#99 * (pow6
      mU3))))) + ((m3 * mU32) * (((((((#(-10) * mU32) * (pow4 mQ3)) - ((#30 * mU32) * (pow4 msq))) + (mQ32 *
      ((((#(-60) * msq2) * mU32) + (#30 * (pow4 msq))) - (#4 * (pow4 mU3))))) + ((#60 * msq2) * (pow4 mU3)))
      + (#3 * (pow6 mQ3))) + (#27 * (pow6 mU3))))) + ((#18 * (mQ32 - mU32)) * (pow7 m3))))) + ((((#2 * (pow2
      (mQ32 - mU32))) * (pow2 (lmQ3MR - logQ3m3))) * (pow3 m3)) * ((((((((#(-142) * m32) * mQ32) * mU32) *
      (mQ32 + mU32)) + ((#87 * (pow4 mQ3)) * (pow4 mU3))) + ((pow4 m3) * ((((#220 * mQ32) * mU32) + (#57 *
      (pow4 mQ3))) + (#57 * (pow4 mU3))))) - ((#82 * (mQ32 + mU32)) * (pow6 m3))) + (#27 * (pow8 m3))))) -
      (((mQ32 - mU32) * (lmQ3MR - logQ3m3)) * ((((((((#2 * (m32 - mQ32)) * (m32 - mU32)) * (mQ32 - mU32)) *
      (pow3 m3)) * ((((((#3 * mU32) * ((#10 * msq2) + mU32)) - ((#15 * m32) * (((#5 * mQ32) + (#4 * msq2)) +
      (#5 * mU32)))) + (mQ32 * ((#30 * msq2) + (#59 * mU32)))) + (#85 * (pow4 m3))) + (#3 * (pow4 mQ3)))) -
      (((((#10 * (m32 - mQ32)) * (m32 - mU32)) * (mQ32 - mU32)) * (lmQ3MR - logQ3mq)) * (((((#(-11) * mQ32) *
      mU32) * (pow3 m3)) + ((#5 * (mQ32 + mU32)) * (pow5 m3))) + (pow7 m3)))) + ((lmQ3MR * (m32 - mU32)) *
      ((((((#68 * (pow11 m3)) + (((#12 * m3) * (pow4 mU3)) * (pow6 mQ3))) + ((pow5 m3) * ((((#(-215) * mU32)
      * (pow4 mQ3)) - ((#184 * mQ32) * (pow4 mU3))) + (#3 * (pow6 mQ3))))) + ((pow3 m3) * (((#105 * (pow4
      mQ3)) * (pow4 mU3)) - ((#17 * mU32) * (pow6 mQ3))))) + (((((#353 * mQ32) * mU32) + (#120 * (pow4 mQ3)))
      + (#75 * (pow4 mU3))) * (pow7 m3))) - (((#183 * mQ32) + (#137 * mU32)) * (pow9 m3))))) - (((m32 - mQ32)
      * (lmQ3MR - logQ3U3)) * ((((((#68 * (pow11 m3)) + (((#12 * m3) * (pow4 mQ3)) * (pow6 mU3))) + ((pow5
      m3) * ((((#(-184) * mU32) * (pow4 mQ3)) - ((#215 * mQ32) * (pow4 mU3))) + (#3 * (pow6 mU3))))) + ((pow3
      m3) * (((#105 * (pow4 mQ3)) * (pow4 mU3)) - ((#17 * mQ32) * (pow6 mU3))))) + (((((#353 * mQ32) * mU32)
      + (#75 * (pow4 mQ3))) + (#120 * (pow4 mU3))) * (pow7 m3))) - (((#137 * mQ32) + (#183 * mU32)) * (pow9
      m3))))))) - (((m32 - mU32) * (pow2 lmQ3MR)) * (((((((#(-18) * (mQ32 - mU32)) * (pow11 m3)) - ((#2 *
      (((((((#30 * msq2) + (#49 * mU32)) * (pow4 mQ3)) + ((#15 * mU32) * (pow4 msq))) - (mQ32 * ((((#30 *
      msq2) * mU32) + (#15 * (pow4 msq))) + (#58 * (pow4 mU3))))) + (#52 * (pow6 mQ3))) - (#11 * (pow6
      mU3)))) * (pow7 m3))) + ((pow5 m3) * ((((((#60 * (pow4 msq)) * (pow4 mU3)) - ((#3 * (pow4 mQ3)) *
      ((((#(-20) * msq2) * mU32) + (#10 * (pow4 msq))) + (#9 * (pow4 mU3))))) + (((#60 * msq2) + (#169 *
      mU32)) * (pow6 mQ3))) - (mQ32 * ((((#30 * mU32) * (pow4 msq)) + ((#120 * msq2) * (pow4 mU3))) + (#83 *
      (pow6 mU3))))) + (#37 * (pow8 mQ3))))) + (((((#(-33) * mQ32) * mU32) + (#86 * (pow4 mQ3))) - (#37 *
      (pow4 mU3))) * (pow9 m3))) + ((m3 * mQ32) * (((((((((#(-30) * mQ32) * msq2) * (msq2 + (#2 * mU32))) *
      (pow4 mU3)) + ((#42 * (pow4 mU3)) * (pow6 mQ3))) + ((pow4 mQ3) * (((#60 * msq2) * (pow4 mU3)) - (#19 *
      (pow6 mU3))))) + ((#30 * (pow4 msq)) * (pow6 mU3))) - ((#10 * mU32) * (pow8 mQ3))) + (#3 * (power10
      mQ3))))) - ((#2 * (pow3 m3)) * (((((((((#15 * mQ32) * msq2) * (msq2 - (#2 * mU32))) * (pow4 mU3)) +
      ((((#60 * msq2) * mU32) + (#53 * (pow4 mU3))) * (pow6 mQ3))) + ((#15 * (pow4 msq)) * (pow6 mU3))) -
      ((#6 * (pow4 mQ3)) * ((((#5 * mU32) * (pow4 msq)) + ((#5 * msq2) * (pow4 mU3))) + (#7 * (pow6 mU3)))))
      + ((#17 * mU32) * (pow8 mQ3))) + (#4 * (power10 mQ3))))))) + (((lmQ3MR * (m32 - mQ32)) * (m32 - mU32))
      * (((((((#(-10) * m3) * (mQ32 - mU32)) * (lmQ3MR - logQ3mq)) * (pow2 (m32 - mU32))) * ((((m32 * mQ32) +
      ((#12 * mQ32) * msq2)) - (pow4 mQ3)) - (#6 * (pow4 msq)))) + (((#2 * (m32 - mU32)) * (mQ32 - mU32)) *
      ((((- ((mQ32 * (((#61 * mQ32) + (#30 * msq2)) + (#53 * mU32))) * (pow3 m3))) + ((m3 * mQ32) * (((((#53
      * mQ32) * mU32) + ((#30 * msq2) * mU32)) + (#3 * (pow4 mQ3))) + (#3 * (pow4 mU3))))) + (((#55 * mQ32) -
      (#16 * mU32)) * (pow5 m3))) + (#16 * (pow7 m3))))) - ((m3 * (lmQ3MR - logQ3U3)) * (((((((((((#(-34) *
      mQ32) * mU32) + (pow4 mQ3)) + (pow4 mU3)) * (pow6 m3)) + ((#38 * (pow4 mU3)) * (pow6 mQ3))) + ((pow4
      m3) * (((((#29 * mU32) * (pow4 mQ3)) + ((#59 * mQ32) * (pow4 mU3))) + (#9 * (pow6 mQ3))) - (pow6
      mU3)))) + ((#8 * (pow4 mQ3)) * (pow6 mU3))) - ((#20 * mU32) * (pow8 mQ3))) - (m32 * (((((#88 * (pow4
      mQ3)) * (pow4 mU3)) - ((#11 * mU32) * (pow6 mQ3))) + ((#9 * mQ32) * (pow6 mU3))) + (#10 * (pow8
      mQ3))))) + (#6 * (power10 mQ3)))))))))) / (((((#3 * mQ32) * mU32) * (pow3 (m32 - mQ32))) * (pow3 (m32 -
      mU32))) * (pow5 (mQ32 - mU32))).
Definition xtt_G_4 (Li2 : R -> R) (mQ32 mU32 m32 mQ3 mU3 m3 msq2 msq lmQ3MR : R) : R :=
    let logQ3U3 := nlog (mQ32 / mU32) in
    let logQ3m3 := nlog (mQ32 / m32) in
    let logQ3mq := nlog (mQ32 / msq2) in
    ((#(-4) * #1) * ((((((((((#640 * mQ32) * (mQ32 - mU32)) * mU32) * logQ3U3) * (pow2 (m32 - mQ32))) * (pow2
      (m32 - mU32))) * (pow2 ((((m3 * (m32 - mQ32)) * mU32) * logQ3U3) + (((mQ32 - mU32) * logQ3m3) * (pow3
      m3))))) - (((((((#512 * m3) * mQ32) * mU32) * ((((((((((((((#(-8) * mQ32) + ((#4 * lmQ3MR) * mQ32)) +
      (#8 * mU32)) - ((#4 * lmQ3MR) * mU32)) + (((#4 * m32) - (#2 * (mQ32 + mU32))) * (Li2 (#1 - (m32 /
      mQ32))))) + ((#2 * (((#(-2) * m32) + mQ32) + mU32)) * (Li2 (#1 - (m32 / mU32))))) + ((#2 * mQ32) *
      logQ3U3)) - (((#2 * lmQ3MR) * mQ32) * logQ3U3)) + ((#6 * mU32) * logQ3U3)) - (((#2 * lmQ3MR) * mU32) *
      logQ3U3)) + (((#4 * m32) * logQ3m3) * logQ3U3)) - ((#2 * m32) * (pow2 logQ3U3))) + (mQ32 * (pow2
      logQ3U3))) + (mU32 * (pow2 logQ3U3)))) * ((((m3 * (m32 - mQ32)) * mU32) * logQ3U3) + (((mQ32 - mU32) *
      logQ3m3) * (pow3 m3)))) * (pow3 (m32 - mQ32))) * (pow3 (m32 - mU32)))) - ((((#4 * (pow2 (m32 - mQ32)))
      * (pow2 (m32 - mU32))) * ((((((#6 * (pow2 (m32 - mQ32))) * (pow2 (m32 - mU32))) - (((#12 * lmQ3MR) *
      (pow2 (m32 - mQ32))) * (pow2 (m32 - mU32)))) + (((#12 * logQ3m3) * (pow2 (m32 - mQ32))) * (pow2 (m32 -
      mU32)))) - (((((#12 * lmQ3MR) - (#10 * logQ3mq)) - logQ3U3) * (pow2 (m32 - mQ32))) * (pow2 (m32 -
      mU32)))) + (#16 * (((((((mQ32 * ((- m32) + mQ32)) * (m32 - mU32)) * mU32) + (((m32 - mQ32) * (m32 -
      mU32)) * (pow4 m3))) + ((lmQ3MR * (pow2 (m32 - mU32))) * (((#2 * m32) * mQ32) - (pow4 mQ3)))) +
      (((lmQ3MR - logQ3U3) * (pow2 (m32 - mQ32))) * (((#2 * m32) * mU32) - (pow4 mU3)))) - (((lmQ3MR -
      logQ3m3) * (pow4 m3)) * (((((#(-2) * m32) * (mQ32 + mU32)) + (#2 * (pow4 m3))) + (pow4 mQ3)) + (pow4
      mU3))))))) * ((((((((((((((((((((((((((((((((((((mQ32 * (mQ32 - mU32)) * mU32) * (((#(-2) * m32) +
      mQ32) + mU32)) * (Li2 (#1 - (m32 / mQ32)))) + ((m32 * mU32) * (pow4 mQ3))) - (((lmQ3MR * m32) * mU32) *
      (pow4 mQ3))) + (((m32 * mU32) * logQ3m3) * (pow4 mQ3))) + ((((#2 * m32) * mU32) * logQ3U3) * (pow4
      mQ3))) - (((((#2 * lmQ3MR) * m32) * mU32) * logQ3U3) * (pow4 mQ3))) + (((m32 * mU32) * (pow2 logQ3U3))
      * (pow4 mQ3))) + ((m32 * mQ32) * (pow4 mU3))) - (((lmQ3MR * m32) * mQ32) * (pow4 mU3))) + (((m32 *
      mQ32) * logQ3m3) * (pow4 mU3))) - ((((#2 * m32) * mQ32) * logQ3U3) * (pow4 mU3))) + (((((#2 * lmQ3MR) *
      m32) * mQ32) * logQ3U3) * (pow4 mU3))) - (((m32 * mQ32) * (pow2 logQ3U3)) * (pow4 mU3))) + ((#12 *
      (pow4 mQ3)) * (pow4 mU3))) - (((#8 * lmQ3MR) * (pow4 mQ3)) * (pow4 mU3))) + (((#4 * logQ3U3) * (pow4
      mQ3)) * (pow4 mU3))) - (((#2 * (pow2 logQ3U3)) * (pow4 mQ3)) * (pow4 mU3))) + (((mQ32 * mU32) * (Li2
      (#1 - (m32 / mU32)))) * ((((#2 * m32) * (mQ32 - mU32)) - (pow4 mQ3)) + (pow4 mU3)))) - (m32 * (pow6
      mQ3))) + ((lmQ3MR * m32) * (pow6 mQ3))) - ((#6 * mU32) * (pow6 mQ3))) + (((#4 * lmQ3MR) * mU32) * (pow6
      mQ3))) - ((m32 * logQ3m3) * (pow6 mQ3))) + (((#3 * mU32) * logQ3U3) * (pow6 mQ3))) - ((((#2 * lmQ3MR) *
      mU32) * logQ3U3) * (pow6 mQ3))) - (m32 * (pow6 mU3))) + ((lmQ3MR * m32) * (pow6 mU3))) - ((#6 * mQ32) *
      (pow6 mU3))) + (((#4 * lmQ3MR) * mQ32) * (pow6 mU3))) - ((m32 * logQ3m3) * (pow6 mU3))) - (((#7 * mQ32)
      * logQ3U3) * (pow6 mU3))) + ((((#2 * lmQ3MR) * mQ32) * logQ3U3) * (pow6 mU3))) - (((#2 * mQ32) * (pow2
      logQ3U3)) * (pow6 mU3))))) + (((mQ32 * mU32) * ((#2 * (mQ32 - mU32)) - ((mQ32 + mU32) * logQ3U3))) *
      (((((((((((((((((#12 * (mQ32 - mU32)) * (pow2 ((- ((m32 - mQ32) * (((((m32 - mQ32) * ((#2 * m32) -
      mU32)) * mU32) * logQ3U3) + ((m32 - mU32) * (((((#1 + (#2 * lmQ3MR)) * mQ32) * mU32) - (((#2 * lmQ3MR)
      * m32) * (mQ32 + mU32))) + ((#(-1) + (#2 * lmQ3MR)) * (pow4 m3))))))) + ((logQ3m3 * (pow4 m3)) *
      (((((#(-2) * m32) * (mQ32 + mU32)) + (#2 * (pow4 m3))) + (pow4 mQ3)) + (pow4 mU3)))))) - (((((#15 *
      (m32 - mQ32)) * (m32 - mU32)) * (mQ32 - mU32)) * (pow2 (lmQ3MR - logQ3mq))) * ((((#(-2) * (mQ32 -
      msq2)) * (pow3 (m32 - mU32))) * ((((#(-3) * m32) * (mQ32 - msq2)) + (mQ32 * (mQ32 + msq2))) - (#2 *
      (pow4 m3)))) - (((#2 * (msq2 - mU32)) * (pow3 (m32 - mQ32))) * ((((#(-3) * m32) * (msq2 - mU32)) -
      (mU32 * (msq2 + mU32))) + (#2 * (pow4 m3))))))) + ((((((#60 * (m32 - mU32)) * (mQ32 - mU32)) * (msq2 -
      mU32)) * (Li2 (#1 - (msq2 / mU32)))) * ((((#(-3) * m32) * (msq2 - mU32)) - (mU32 * (msq2 + mU32))) +
      (#2 * (pow4 m3)))) * (pow4 (m32 - mQ32)))) - ((((((#60 * (m32 - mQ32)) * (mQ32 - msq2)) * (mQ32 -
      mU32)) * (Li2 (#1 - (msq2 / mQ32)))) * ((((#3 * m32) * (mQ32 - msq2)) - (mQ32 * (mQ32 + msq2))) + (#2 *
      (pow4 m3)))) * (pow4 (m32 - mU32)))) - (((((#20 * (mQ32 - mU32)) * (lmQ3MR - logQ3mq)) * (pow2 (m32 -
      mQ32))) * (pow2 (m32 - mU32))) * ((((((((#3 * mQ32) * msq2) * (pow4 mU3)) + ((pow4 mQ3) * (((#3 * msq2)
      * mU32) + (#10 * (pow4 mU3))))) + ((pow4 m3) * (((((#(-15) * msq2) * mU32) + (mQ32 * ((#(-15) * msq2) +
      (#44 * mU32)))) + (#11 * (pow4 mQ3))) + (#11 * (pow4 mU3))))) + ((#3 * m32) * (((((#3 * msq2) - (#7 *
      mU32)) * (pow4 mQ3)) + ((#3 * msq2) * (pow4 mU3))) - (mQ32 * (((#4 * msq2) * mU32) + (#7 * (pow4
      mU3))))))) + ((((#(-23) * mQ32) + (#18 * msq2)) - (#23 * mU32)) * (pow6 m3))) + (#12 * (pow8 m3))))) +
      ((((mQ32 - mU32) * (pow2 (m32 - mQ32))) * (pow2 (m32 - mU32))) * (((((- ((mQ32 * mU32) * ((((#6 * mU32)
      * ((#10 * msq2) + mU32)) + (mQ32 * ((#60 * msq2) + (#169 * mU32)))) + (#6 * (pow4 mQ3))))) + ((pow4 m3)
      * (((((#4 * mQ32) * ((#75 * msq2) - (#28 * mU32))) + ((#300 * msq2) * mU32)) + (#93 * (pow4 mQ3))) +
      (#93 * (pow4 mU3))))) - ((#6 * (((#47 * mQ32) + (#60 * msq2)) + (#47 * mU32))) * (pow6 m3))) - ((#2 *
      m32) * (((((#2 * ((#45 * msq2) - (#52 * mU32))) * (pow4 mQ3)) + ((#9 * ((#10 * msq2) + mU32)) * (pow4
      mU3))) - ((#8 * mQ32) * (((#15 * msq2) * mU32) + (#13 * (pow4 mU3))))) + (#9 * (pow6 mQ3))))) + (#291 *
      (pow8 m3))))) + ((((((#60 * (m32 - mQ32)) * (m32 - msq2)) * (m32 - mU32)) * (mQ32 - mU32)) * (Li2 (#1 -
      (m32 / msq2)))) * ((((((- (((mQ32 * msq2) * mU32) * ((pow4 mQ3) + (pow4 mU3)))) + ((((((#(-8) * msq2) *
      mU32) + (mQ32 * ((#(-8) * msq2) + (#30 * mU32)))) + (#3 * (pow4 mQ3))) + (#3 * (pow4 mU3))) * (pow6
      m3))) - ((pow4 m3) * (((((((#(-9) * msq2) + (#15 * mU32)) * (pow4 mQ3)) - ((#9 * msq2) * (pow4 mU3))) +
      ((#3 * mQ32) * (((#2 * msq2) * mU32) + (#5 * (pow4 mU3))))) + (pow6 mQ3)) + (pow6 mU3)))) + (m32 *
      ((((((#3 * msq2) * mU32) * (pow4 mQ3)) + (((#(-3) * msq2) + (#5 * mU32)) * (pow6 mQ3))) - ((#3 * msq2)
      * (pow6 mU3))) + (mQ32 * (((#3 * msq2) * (pow4 mU3)) + (#5 * (pow6 mU3))))))) + ((((#(-8) * mQ32) + (#6
      * msq2)) - (#8 * mU32)) * (pow8 m3))) + (#2 * (power10 m3))))) + (((((#2 * (m32 - mQ32)) * (m32 -
      mU32)) * (Li2 (#1 - (mQ32 / mU32)))) * (pow2 (mQ32 - mU32))) * (((((((((((((#(-76) * mQ32) * mU32) +
      (#34 * (pow4 mQ3))) + (#34 * (pow4 mU3))) * (pow6 m3)) + ((#7 * (pow4 mU3)) * (pow6 mQ3))) + ((pow4 m3)
      * (((((#65 * mU32) * (pow4 mQ3)) + ((#65 * mQ32) * (pow4 mU3))) - (#29 * (pow6 mQ3))) - (#29 * (pow6
      mU3))))) + ((#7 * (pow4 mQ3)) * (pow6 mU3))) - ((#14 * (mQ32 + mU32)) * (pow8 m3))) + ((#3 * mU32) *
      (pow8 mQ3))) + ((#3 * mQ32) * (pow8 mU3))) + (m32 * ((((((#(-34) * (pow4 mQ3)) * (pow4 mU3)) - ((#26 *
      mU32) * (pow6 mQ3))) - ((#26 * mQ32) * (pow6 mU3))) + (#9 * (pow8 mQ3))) + (#9 * (pow8 mU3))))) + (#12
      * (power10 m3))))) - (((pow2 (lmQ3MR - logQ3U3)) * (pow4 (m32 - mQ32))) * (((((((((- mQ32) + mU32) *
      (pow4 mU3)) * (((((#4 * mQ32) * mU32) + (#3 * (pow4 mQ3))) + (#30 * (pow4 msq))) + (#21 * (pow4 mU3))))
      + ((((((#60 * msq2) * mU32) + (mQ32 * ((#(-60) * msq2) + (#68 * mU32)))) - (#2 * (pow4 mQ3))) + (#702 *
      (pow4 mU3))) * (pow6 m3))) + (((#2 * m32) * mU32) * (((((#18 * mU32) * (pow4 mQ3)) + ((#6 * mU32) *
      ((((#(-15) * msq2) * mU32) + (#5 * (pow4 msq))) + (#4 * (pow4 mU3))))) + (mQ32 * ((((#90 * msq2) *
      mU32) - (#30 * (pow4 msq))) + (#25 * (pow4 mU3))))) - (#3 * (pow6 mQ3))))) + ((pow4 m3) * (((((((#(-33)
      * mU32) * (pow4 mQ3)) - ((#90 * mU32) * (pow4 msq))) + ((#3 * mQ32) * ((((#(-40) * msq2) * mU32) + (#30
      * (pow4 msq))) - (#47 * (pow4 mU3))))) + ((#120 * msq2) * (pow4 mU3))) + (#9 * (pow6 mQ3))) - (#347 *
      (pow6 mU3))))) + (((#44 * mQ32) - (#556 * mU32)) * (pow8 m3))) + (#128 * (power10 m3))))) - (((#2 *
      (mQ32 - mU32)) * (pow2 (lmQ3MR - logQ3m3))) * ((((((((((#878 * (mQ32 + mU32)) * (pow14 m3)) - (#262 *
      (pow16 m3))) + ((((pow4 m3) * (pow4 mQ3)) * (pow4 mU3)) * ((((#452 * mQ32) * mU32) + (pow4 mQ3)) +
      (pow4 mU3)))) - ((pow12 m3) * ((((#2972 * mQ32) * mU32) + (#885 * (pow4 mQ3))) + (#885 * (pow4 mU3)))))
      - ((((#144 * m32) * (mQ32 + mU32)) * (pow6 mQ3)) * (pow6 mU3))) + ((#36 * (pow8 mQ3)) * (pow8 mU3))) -
      ((pow8 m3) * ((((((#2404 * (pow4 mQ3)) * (pow4 mU3)) + ((#1004 * mU32) * (pow6 mQ3))) + ((#1004 * mQ32)
      * (pow6 mU3))) + (#49 * (pow8 mQ3))) + (#49 * (pow8 mU3))))) + ((#2 * (pow6 m3)) * (((((#184 * (pow4
      mU3)) * (pow6 mQ3)) + ((#184 * (pow4 mQ3)) * (pow6 mU3))) + ((#79 * mU32) * (pow8 mQ3))) + ((#79 *
      mQ32) * (pow8 mU3))))) + ((#4 * (((((#733 * mU32) * (pow4 mQ3)) + ((#733 * mQ32) * (pow4 mU3))) + (#80
      * (pow6 mQ3))) + (#80 * (pow6 mU3)))) * (power10 m3))))) + ((((#2 * lmQ3MR) * (m32 - mQ32)) * (m32 -
      mU32)) * ((((((#(-10) * (mQ32 - mU32)) * (lmQ3MR - logQ3mq)) * (pow3 (m32 - mU32))) * (((((#2 * (mQ32 +
      (#3 * msq2))) * (pow4 m3)) - ((#3 * mQ32) * (pow4 msq))) - ((#3 * m32) * ((((#(-6) * mQ32) * msq2) +
      (pow4 mQ3)) + (#3 * (pow4 msq))))) + (pow6 mQ3))) + ((m32 - mU32) * (((((((((mQ32 - mU32) * mU32) *
      (pow4 mQ3)) * ((((#128 * mQ32) * mU32) + (#3 * (pow4 mQ3))) - (#3 * (((#10 * msq2) * mU32) + (pow4
      mU3))))) + ((mQ32 * (pow4 m3)) * ((((((#(-5) * ((#6 * msq2) + (#5 * mU32))) * (pow4 mQ3)) + ((#6 *
      mQ32) * (((#35 * msq2) * mU32) - (#157 * (pow4 mU3))))) - ((#180 * msq2) * (pow4 mU3))) + (#106 * (pow6
      mQ3))) - (#163 * (pow6 mU3))))) + ((pow6 m3) * ((((((#(-90) * msq2) + (#985 * mU32)) * (pow4 mQ3)) +
      (mQ32 * (((#90 * msq2) * mU32) + (#622 * (pow4 mU3))))) - (#18 * (pow6 mQ3))) - (#53 * (pow6 mU3))))) +
      (((((#(-764) * mQ32) * mU32) - (#365 * (pow4 mQ3))) + (#105 * (pow4 mU3))) * (pow8 m3))) + ((m32 *
      mQ32) * ((((((#6 * (pow4 mQ3)) * (((#10 * msq2) * mU32) + (#41 * (pow4 mU3)))) - ((#279 * mU32) * (pow6
      mQ3))) + ((#9 * ((#10 * msq2) + mU32)) * (pow6 mU3))) + (mQ32 * (((#(-150) * msq2) * (pow4 mU3)) +
      (#271 * (pow6 mU3))))) + (#9 * (pow8 mQ3))))) + ((#4 * ((#77 * mQ32) - (#13 * mU32))) * (power10
      m3))))) - (((mQ32 - mU32) * (lmQ3MR - logQ3U3)) * (((((((mU32 * ((((#4 * mQ32) * mU32) + (#3 * (pow4
      mQ3))) - (#3 * (pow4 mU3)))) * (pow6 mQ3)) + ((pow6 m3) * (((((#(-53) * mU32) * (pow4 mQ3)) + ((#57 *
      mQ32) * (pow4 mU3))) + (#35 * (pow6 mQ3))) + (pow6 mU3)))) + ((m32 * (pow4 mQ3)) * (((((#(-35) * mU32)
      * (pow4 mQ3)) + (mQ32 * (pow4 mU3))) + (#9 * (pow6 mQ3))) + (#9 * (pow6 mU3))))) - (((((#28 * mQ32) *
      mU32) + (#17 * (pow4 mQ3))) + (#3 * (pow4 mU3))) * (pow8 m3))) - ((pow4 m3) * (((((#23 * (pow4 mQ3)) *
      (pow4 mU3)) - ((#75 * mU32) * (pow6 mQ3))) + ((#19 * mQ32) * (pow6 mU3))) + (#29 * (pow8 mQ3))))) +
      ((#2 * ((#7 * mQ32) + mU32)) * (power10 m3))))))) - ((#2 * (lmQ3MR - logQ3m3)) * (((((((((#20 * (m32 -
      mQ32)) * (m32 - mU32)) * (mQ32 - mU32)) * (lmQ3MR - logQ3mq)) * (pow4 m3)) * (((((((#7 * mQ32) * mU32)
      * ((pow4 mQ3) + (pow4 mU3))) + ((#3 * (pow4 m3)) * ((((#14 * mQ32) * mU32) + (pow4 mQ3)) + (pow4
      mU3)))) - ((#10 * (mQ32 + mU32)) * (pow6 m3))) - (m32 * (((((#21 * mU32) * (pow4 mQ3)) + ((#21 * mQ32)
      * (pow4 mU3))) + (pow6 mQ3)) + (pow6 mU3)))) + (#2 * (pow8 m3)))) + ((((m32 - mQ32) * (m32 - mU32)) *
      (mQ32 - mU32)) * (((((((#864 * (pow12 m3)) + ((#48 * (pow6 mQ3)) * (pow6 mU3))) + ((((#3 * m32) * mQ32)
      * mU32) * ((((((#5 * ((#2 * msq2) - (#23 * mU32))) * (pow4 mQ3)) - ((#115 * mQ32) * (pow4 mU3))) +
      ((#10 * msq2) * (pow4 mU3))) + (pow6 mQ3)) + (pow6 mU3)))) - ((#9 * (pow6 m3)) * (((((((#30 * msq2) +
      (#317 * mU32)) * (pow4 mQ3)) + ((#30 * msq2) * (pow4 mU3))) + (mQ32 * (((#(-20) * msq2) * mU32) + (#317
      * (pow4 mU3))))) + (#39 * (pow6 mQ3))) + (#39 * (pow6 mU3))))) + ((#4 * (((((#60 * msq2) * mU32) + ((#2
      * mQ32) * ((#30 * msq2) + (#511 * mU32)))) + (#365 * (pow4 mQ3))) + (#365 * (pow4 mU3)))) * (pow8 m3)))
      + ((pow4 m3) * ((((((pow4 mQ3) * (((#(-90) * msq2) * mU32) + (#1894 * (pow4 mU3)))) + (((#90 * msq2) +
      (#572 * mU32)) * (pow6 mQ3))) + ((#9 * ((#10 * msq2) + mU32)) * (pow6 mU3))) + (mQ32 * (((#(-90) *
      msq2) * (pow4 mU3)) + (#572 * (pow6 mU3))))) + (#9 * (pow8 mQ3))))) - ((#2 * (((#971 * mQ32) + (#90 *
      msq2)) + (#971 * mU32))) * (power10 m3))))) - (((#2 * (m32 - mQ32)) * (lmQ3MR - logQ3U3)) *
      ((((((((((#(-12) * ((#17 * mQ32) + (#15 * mU32))) * (pow14 m3)) + (#64 * (pow16 m3))) + ((#2 * (pow12
      m3)) * ((((#302 * mQ32) * mU32) + (#117 * (pow4 mQ3))) + (#61 * (pow4 mU3))))) + ((((#6 * m32) * (pow4
      mQ3)) * (((- (mQ32 * mU32)) + (#4 * (pow4 mQ3))) - (#3 * (pow4 mU3)))) * (pow6 mU3))) + (((mQ32 * (pow4
      m3)) * (pow4 mU3)) * (((((#(-53) * mU32) * (pow4 mQ3)) + ((#61 * mQ32) * (pow4 mU3))) + (#43 * (pow6
      mQ3))) + (#13 * (pow6 mU3))))) + (((#6 * ((- mQ32) + mU32)) * (pow6 mQ3)) * (pow8 mU3))) - ((mU32 *
      (pow6 m3)) * ((((((#13 * (pow4 mQ3)) * (pow4 mU3)) + ((#239 * mU32) * (pow6 mQ3))) + ((#49 * mQ32) *
      (pow6 mU3))) + (#76 * (pow8 mQ3))) + (#7 * (pow8 mU3))))) + ((pow8 m3) * ((((((#503 * (pow4 mQ3)) *
      (pow4 mU3)) + ((#401 * mU32) * (pow6 mQ3))) + ((#13 * mQ32) * (pow6 mU3))) + (#13 * (pow8 mQ3))) + (#30
      * (pow8 mU3))))) - ((((((#779 * mU32) * (pow4 mQ3)) + ((#369 * mQ32) * (pow4 mU3))) + (#101 * (pow6
      mQ3))) + (#31 * (pow6 mU3))) * (power10 m3))))) + (((#2 * lmQ3MR) * (m32 - mU32)) * ((((((((((#(-12) *
      ((#15 * mQ32) + (#17 * mU32))) * (pow14 m3)) + (#64 * (pow16 m3))) + ((#2 * (pow12 m3)) * ((((#302 *
      mQ32) * mU32) + (#61 * (pow4 mQ3))) + (#117 * (pow4 mU3))))) - ((((#6 * m32) * (((mQ32 * mU32) + (#3 *
      (pow4 mQ3))) - (#4 * (pow4 mU3)))) * (pow4 mU3)) * (pow6 mQ3))) + (((mU32 * (pow4 m3)) * (pow4 mQ3)) *
      (((((#61 * mU32) * (pow4 mQ3)) - ((#53 * mQ32) * (pow4 mU3))) + (#13 * (pow6 mQ3))) + (#43 * (pow6
      mU3))))) + (((#6 * (mQ32 - mU32)) * (pow6 mU3)) * (pow8 mQ3))) + ((pow8 m3) * ((((((#503 * (pow4 mQ3))
      * (pow4 mU3)) + ((#13 * mU32) * (pow6 mQ3))) + ((#401 * mQ32) * (pow6 mU3))) + (#30 * (pow8 mQ3))) +
      (#13 * (pow8 mU3))))) - ((mQ32 * (pow6 m3)) * ((((((#13 * (pow4 mQ3)) * (pow4 mU3)) + ((#49 * mU32) *
      (pow6 mQ3))) + ((#239 * mQ32) * (pow6 mU3))) + (#7 * (pow8 mQ3))) + (#76 * (pow8 mU3))))) - ((((((#369
      * mU32) * (pow4 mQ3)) + ((#779 * mQ32) * (pow4 mU3))) + (#31 * (pow6 mQ3))) + (#101 * (pow6 mU3))) *
      (power10 m3))))))) + ((((#2 * (m32 - mU32)) * (Li2 (#1 - (m32 / mQ32)))) * (pow2 (m32 - mQ32))) *
      (((((((#128 * (pow12 m3)) - ((mU32 * (pow4 mQ3)) * ((((mU32 * (pow4 mQ3)) + ((#19 * mQ32) * (pow4
      mU3))) + (#3 * (pow6 mQ3))) - (#23 * (pow6 mU3))))) + ((pow6 m3) * (((((#(-251) * mU32) * (pow4 mQ3)) -
      ((#1025 * mQ32) * (pow4 mU3))) + (#9 * (pow6 mQ3))) - (#13 * (pow6 mU3))))) + (((((#902 * mQ32) * mU32)
      + (#98 * (pow4 mQ3))) + (#280 * (pow4 mU3))) * (pow8 m3))) + ((pow4 m3) * ((((((#417 * (pow4 mQ3)) *
      (pow4 mU3)) - ((#151 * mU32) * (pow6 mQ3))) + ((#391 * mQ32) * (pow6 mU3))) + (#20 * (pow8 mQ3))) -
      (#37 * (pow8 mU3))))) - ((#2 * ((#147 * mQ32) + (#173 * mU32))) * (power10 m3))) + (m32 * ((((((#41 *
      (pow4 mU3)) * (pow6 mQ3)) - ((#167 * (pow4 mQ3)) * (pow6 mU3))) + ((#41 * mU32) * (pow8 mQ3))) - ((#34
      * mQ32) * (pow8 mU3))) - (#9 * (power10 mQ3))))))) + (((m32 - mU32) * (pow2 lmQ3MR)) * ((((((((((#(-4)
      * ((#139 * mQ32) + (#85 * mU32))) * (pow14 m3)) + (#128 * (pow16 m3))) + ((#2 * (pow12 m3)) *
      (((((#(-30) * msq2) * mU32) + (mQ32 * ((#30 * msq2) + (#856 * mU32)))) + (#357 * (pow4 mQ3))) + (#131 *
      (pow4 mU3))))) - ((((mQ32 - mU32) * mU32) * (pow4 mQ3)) * (((((#21 * (pow4 mQ3)) * (pow4 mU3)) + ((#30
      * (pow4 msq)) * (pow4 mU3))) + ((#4 * mU32) * (pow6 mQ3))) + (#3 * (pow8 mQ3))))) + ((pow8 m3) * (((((-
      ((pow4 mU3) * ((((#180 * msq2) * mU32) + (#270 * (pow4 msq))) + (#43 * (pow4 mU3))))) + ((pow4 mQ3) *
      ((((#(-180) * msq2) * mU32) + (#60 * (pow4 msq))) + (#2771 * (pow4 mU3))))) + (((#(-180) * msq2) +
      (#933 * mU32)) * (pow6 mQ3))) + ((#3 * mQ32) * ((((#70 * mU32) * (pow4 msq)) + ((#180 * msq2) * (pow4
      mU3))) + (#241 * (pow6 mU3))))) + (#96 * (pow8 mQ3))))) + (((((((#120 * msq2) - (#2209 * mU32)) * (pow4
      mQ3)) - (mQ32 * ((((#300 * msq2) * mU32) + (#90 * (pow4 msq))) + (#1903 * (pow4 mU3))))) - (#373 *
      (pow6 mQ3))) + (#5 * ((((#18 * mU32) * (pow4 msq)) + ((#36 * msq2) * (pow4 mU3))) + (pow6 mU3)))) *
      (power10 m3))) - ((#2 * (pow6 m3)) * (((((((#(-3) * ((((#90 * msq2) * mU32) + (#5 * (pow4 msq))) -
      (#251 * (pow4 mU3)))) * (pow6 mQ3)) + ((pow4 mQ3) * ((((#105 * mU32) * (pow4 msq)) + ((#90 * msq2) *
      (pow4 mU3))) + (#593 * (pow6 mU3))))) - ((#53 * mU32) * (pow8 mQ3))) + ((#15 * mQ32) * ((((#3 * (pow4
      msq)) * (pow4 mU3)) + ((#14 * msq2) * (pow6 mU3))) + (#2 * (pow8 mU3))))) - (#15 * (((#9 * (pow4 msq))
      * (pow6 mU3)) + ((#2 * msq2) * (pow8 mU3))))) + (#21 * (power10 mQ3))))) + ((#2 * (pow4 m3)) *
      (((((((#19 * (pow12 mQ3)) - ((#5 * (pow6 mQ3)) * ((((#9 * mU32) * (pow4 msq)) + ((#54 * msq2) * (pow4
      mU3))) - (#61 * (pow6 mU3))))) + ((#158 * (pow4 mU3)) * (pow8 mQ3))) - ((#45 * (pow4 msq)) * (pow8
      mU3))) + ((#3 * (pow4 mQ3)) * ((((#45 * (pow4 msq)) * (pow4 mU3)) + ((#70 * msq2) * (pow6 mU3))) + (#27
      * (pow8 mU3))))) + (mQ32 * (((#(-45) * (pow4 msq)) * (pow6 mU3)) + ((#60 * msq2) * (pow8 mU3))))) -
      ((#115 * mU32) * (power10 mQ3))))) + (m32 * ((((((((#47 * mU32) * (pow12 mQ3)) - (#9 * (pow14 mQ3))) -
      ((#119 * (pow6 mU3)) * (pow8 mQ3))) + ((#6 * (pow6 mQ3)) * ((((#15 * (pow4 msq)) * (pow4 mU3)) + ((#30
      * msq2) * (pow6 mU3))) - (#14 * (pow8 mU3))))) + (((#60 * mQ32) * (pow4 msq)) * (pow8 mU3))) - ((#30 *
      (pow4 mQ3)) * (((#5 * (pow4 msq)) * (pow6 mU3)) + ((#6 * msq2) * (pow8 mU3))))) + ((#37 * (pow4 mU3)) *
      (power10 mQ3))))))) - ((((#2 * (m32 - mQ32)) * (Li2 (#1 - (m32 / mU32)))) * (pow2 (m32 - mU32))) *
      (((((((#128 * (pow12 m3)) - ((pow6 m3) * (((((#1025 * mU32) * (pow4 mQ3)) + ((#251 * mQ32) * (pow4
      mU3))) + (#13 * (pow6 mQ3))) - (#9 * (pow6 mU3))))) + ((mQ32 * (pow4 mU3)) * (((((#(-19) * mU32) *
      (pow4 mQ3)) - (mQ32 * (pow4 mU3))) + (#23 * (pow6 mQ3))) - (#3 * (pow6 mU3))))) + (((((#902 * mQ32) *
      mU32) + (#280 * (pow4 mQ3))) + (#98 * (pow4 mU3))) * (pow8 m3))) + ((pow4 m3) * ((((((#417 * (pow4
      mQ3)) * (pow4 mU3)) + ((#391 * mU32) * (pow6 mQ3))) - ((#151 * mQ32) * (pow6 mU3))) - (#37 * (pow8
      mQ3))) + (#20 * (pow8 mU3))))) - ((#2 * ((#173 * mQ32) + (#147 * mU32))) * (power10 m3))) + (m32 *
      ((((((#(-167) * (pow4 mU3)) * (pow6 mQ3)) + ((#41 * (pow4 mQ3)) * (pow6 mU3))) - ((#34 * mU32) * (pow8
      mQ3))) + ((#41 * mQ32) * (pow8 mU3))) - (#9 * (power10 mU3))))))) + ((((#2 * (m32 - mU32)) * (lmQ3MR -
      logQ3U3)) * (pow2 (m32 - mQ32))) * ((((((((((((((((((((((((((((((((((((#180 * msq2) * mU32) * (pow4
      m3)) * (pow4 mQ3)) - ((((#210 * mQ32) * msq2) * (pow4 m3)) * (pow4 mU3))) + ((((#150 * m32) * msq2) *
      (pow4 mQ3)) * (pow4 mU3))) + (((#942 * (pow4 m3)) * (pow4 mQ3)) * (pow4 mU3))) - ((((#90 * mQ32) *
      msq2) * mU32) * (pow6 m3))) - (((#622 * mU32) * (pow4 mQ3)) * (pow6 m3))) - (((#985 * mQ32) * (pow4
      mU3)) * (pow6 m3))) + (((#90 * msq2) * (pow4 mU3)) * (pow6 m3))) - ((((#90 * m32) * msq2) * mU32) *
      (pow6 mQ3))) + (((#163 * mU32) * (pow4 m3)) * (pow6 mQ3))) - (((#271 * m32) * (pow4 mU3)) * (pow6
      mQ3))) - (((#30 * msq2) * (pow4 mU3)) * (pow6 mQ3))) + ((#53 * (pow6 m3)) * (pow6 mQ3))) - ((((#60 *
      m32) * mQ32) * msq2) * (pow6 mU3))) + (((#25 * mQ32) * (pow4 m3)) * (pow6 mU3))) + (((#30 * msq2) *
      (pow4 m3)) * (pow6 mU3))) - (((#246 * m32) * (pow4 mQ3)) * (pow6 mU3))) + (((#30 * msq2) * (pow4 mQ3))
      * (pow6 mU3))) + ((#18 * (pow6 m3)) * (pow6 mU3))) + ((#131 * (pow6 mQ3)) * (pow6 mU3))) - ((((#10 *
      (mQ32 - mU32)) * (lmQ3MR - logQ3mq)) * (pow2 (m32 - mQ32))) * (((((#2 * ((#3 * msq2) + mU32)) * (pow4
      m3)) - ((#3 * mU32) * (pow4 msq))) - ((#3 * m32) * ((((#(-6) * msq2) * mU32) + (#3 * (pow4 msq))) +
      (pow4 mU3)))) + (pow6 mU3)))) + (((#764 * mQ32) * mU32) * (pow8 m3))) - ((#105 * (pow4 mQ3)) * (pow8
      m3))) + ((#365 * (pow4 mU3)) * (pow8 m3))) - (((#9 * m32) * mU32) * (pow8 mQ3))) - ((#3 * (pow4 mU3)) *
      (pow8 mQ3))) + (((#279 * m32) * mQ32) * (pow8 mU3))) - ((#106 * (pow4 m3)) * (pow8 mU3))) - ((#125 *
      (pow4 mQ3)) * (pow8 mU3))) + ((#52 * mQ32) * (power10 m3))) - ((#308 * mU32) * (power10 m3))) - ((#9 *
      m32) * (power10 mU3))) - ((#3 * mQ32) * (power10 mU3)))))))) / (((((#3 * mQ32) * mU32) * (pow4 (m32 -
      mQ32))) * (pow4 (m32 - mU32))) * (pow4 (mQ32 - mU32))).
Lemma xtt_G_poly (Li2 : R -> R) (mQ32 mU32 m32 mQ3 mU3 m3 msq2 msq Xt4 Xt5 Xt6 lmQ3MR : R) : xtt_G Li2 mQ32 mU32 m32 mQ3 mU3 m3 msq2 msq Xt4 Xt5 Xt6 lmQ3MR = (xtt_G_6 Li2 mQ32 mU32 m32 mQ3 mU3 m3 msq2 msq lmQ3MR * Xt6 + xtt_G_5 Li2 mQ32 mU32 m32 mQ3 mU3 m3 msq2 msq lmQ3MR * Xt5 + xtt_G_4 Li2 mQ32 mU32 m32 mQ3 mU3 m3 msq2 msq lmQ3MR * Xt4)%R.
Proof. unfold xtt_G, xtt_G_6, xtt_G_5, xtt_G_4.  unR. unfold Rdiv. first [ring|unfold pow5, pow4, pow3, pow2; unR; ring]. Qed.

Definition xtt_QU_6 (Li2 : R -> R) (mQ32 m32 mQ3 m3 msq2 msq lmQ3MR : R) : R :=
    let logQ3m3 := nlog (mQ32 / m32) in
    let logQ3mq := nlog (mQ32 / msq2) in
    let logmqQ3 := - logQ3mq in
    let logm3Q3 := - logQ3m3 in
    ((#640 * #1) * (pow2 (((- (m3 * mQ32)) + (pow3 m3)) + (logQ3m3 * (pow3 m3))))) / (#9 * (pow4 ((- (m32 *
      mQ3)) + (pow3 mQ3)))).
Definition xtt_QU_5 (Li2 : R -> R) (mQ32 m32 mQ3 m3 msq2 msq lmQ3MR : R) : R :=
    let logQ3m3 := nlog (mQ32 / m32) in
    let logQ3mq := nlog (mQ32 / msq2) in
    let logmqQ3 := - logQ3mq in
    let logm3Q3 := - logQ3m3 in
    (((#(-32) * m3) * #1) * ((((((((((((((((((((((((((((((((((((((((((((((((((((((((((((((((((((((((#60 *
      mQ32) * ((- m32) + mQ32)) * (m32 - msq2)) * (mQ32 - msq2)) * (Li2 (#1 - (m32 / msq2)))) + (((#2 * mQ32)
      * (Li2 (#1 - (m32 / mQ32)))) * (pow3 (m32 - mQ32)))) - (((#60 * mQ32) * msq2) * (pow4 m3))) + ((((#60 *
      mQ32) * msq2) * (Li2 (#1 - (msq2 / mQ32)))) * (pow4 m3))) - ((((#60 * mQ32) * msq2) * logQ3m3) * (pow4
      m3))) + ((((#90 * mQ32) * msq2) * logQ3mq) * (pow4 m3))) + ((((#30 * mQ32) * msq2) * logmqQ3) * (pow4
      m3))) + ((((#30 * mQ32) * msq2) * (pow2 logQ3mq)) * (pow4 m3))) + (((#120 * m32) * msq2) * (pow4 mQ3)))
      + ((((#60 * m32) * msq2) * logQ3m3) * (pow4 mQ3))) - ((((#180 * m32) * msq2) * logQ3mq) * (pow4 mQ3)))
      - ((((#60 * m32) * msq2) * logmqQ3) * (pow4 mQ3))) - ((#345 * (pow4 m3)) * (pow4 mQ3))) + (((#274 *
      lmQ3MR) * (pow4 m3)) * (pow4 mQ3))) - (((#60 * (Li2 (#1 - (msq2 / mQ32)))) * (pow4 m3)) * (pow4 mQ3)))
      - (((#342 * logm3Q3) * (pow4 m3)) * (pow4 mQ3))) - (((#538 * logQ3m3) * (pow4 m3)) * (pow4 mQ3))) +
      ((((#220 * lmQ3MR) * logQ3m3) * (pow4 m3)) * (pow4 mQ3))) - ((((#492 * logm3Q3) * logQ3m3) * (pow4 m3))
      * (pow4 mQ3))) - (((#15 * logQ3mq) * (pow4 m3)) * (pow4 mQ3))) + ((((#50 * logQ3m3) * logQ3mq) * (pow4
      m3)) * (pow4 mQ3))) - (((#602 * (pow2 logQ3m3)) * (pow4 m3)) * (pow4 mQ3))) - (((#30 * (pow2 logQ3mq))
      * (pow4 m3)) * (pow4 mQ3))) - ((((#60 * m32) * mQ32) * (Li2 (#1 - (msq2 / mQ32)))) * (pow4 msq))) +
      ((((#60 * m32) * mQ32) * logQ3mq) * (pow4 msq))) + ((((#60 * m32) * mQ32) * logmqQ3) * (pow4 msq))) -
      ((((#30 * m32) * mQ32) * (pow2 logQ3mq)) * (pow4 msq))) - (((#30 * logQ3mq) * (pow4 m3)) * (pow4 msq)))
      - (((#30 * logmqQ3) * (pow4 m3)) * (pow4 msq))) + (((#60 * (Li2 (#1 - (msq2 / mQ32)))) * (pow4 mQ3)) *
      (pow4 msq))) - (((#30 * logQ3mq) * (pow4 mQ3)) * (pow4 msq))) - (((#30 * logmqQ3) * (pow4 mQ3)) * (pow4
      msq))) + (((#30 * (pow2 logQ3mq)) * (pow4 mQ3)) * (pow4 msq))) + ((#163 * mQ32) * (pow6 m3))) - (((#122
      * lmQ3MR) * mQ32) * (pow6 m3))) + (((#70 * mQ32) * logm3Q3) * (pow6 m3))) + (((#277 * mQ32) * logQ3m3)
      * (pow6 m3))) - ((((#156 * lmQ3MR) * mQ32) * logQ3m3) * (pow6 m3))) + ((((#408 * mQ32) * logm3Q3) *
      logQ3m3) * (pow6 m3))) + (((#5 * mQ32) * logQ3mq) * (pow6 m3))) + ((((#5 * mQ32) * logQ3m3) * logQ3mq)
      * (pow6 m3))) + (((#495 * mQ32) * (pow2 logQ3m3)) * (pow6 m3))) + ((#265 * m32) * (pow6 mQ3))) -
      (((#246 * lmQ3MR) * m32) * (pow6 mQ3))) - ((#60 * msq2) * (pow6 mQ3))) + (((#60 * m32) * (Li2 (#1 -
      (msq2 / mQ32)))) * (pow6 mQ3))) - (((#60 * msq2) * (Li2 (#1 - (msq2 / mQ32)))) * (pow6 mQ3))) + (((#274
      * m32) * logm3Q3) * (pow6 mQ3))) + (((#317 * m32) * logQ3m3) * (pow6 mQ3))) - ((((#96 * lmQ3MR) * m32)
      * logQ3m3) * (pow6 mQ3))) + (((#15 * m32) * logQ3mq) * (pow6 mQ3))) + (((#90 * msq2) * logQ3mq) * (pow6
      mQ3))) - ((((#55 * m32) * logQ3m3) * logQ3mq) * (pow6 mQ3))) + (((#30 * msq2) * logmqQ3) * (pow6 mQ3)))
      + (((#87 * m32) * (pow2 logQ3m3)) * (pow6 mQ3))) + (((#30 * m32) * (pow2 logQ3mq)) * (pow6 mQ3))) -
      (((#30 * msq2) * (pow2 logQ3mq)) * (pow6 mQ3))) - (#16 * (pow8 m3))) + ((#16 * lmQ3MR) * (pow8 m3))) -
      ((#2 * logm3Q3) * (pow8 m3))) - ((#50 * logQ3m3) * (pow8 m3))) + (((#32 * lmQ3MR) * logQ3m3) * (pow8
      m3))) - (((#124 * logm3Q3) * logQ3m3) * (pow8 m3))) - ((#156 * (pow2 logQ3m3)) * (pow8 m3))) - (#67 *
      (pow8 mQ3))) + ((#78 * lmQ3MR) * (pow8 mQ3))) - ((#6 * logQ3m3) * (pow8 mQ3))) - ((#5 * logQ3mq) *
      (pow8 mQ3)))) / ((#9 * (pow4 (m32 - mQ32))) * (pow6 mQ3)).
Definition xtt_QU_4 (Li2 : R -> R) (mQ32 m32 mQ3 m3 msq2 msq lmQ3MR : R) : R :=
    let logQ3m3 := nlog (mQ32 / m32) in
    let logQ3mq := nlog (mQ32 / msq2) in
    let logmqQ3 := - logQ3mq in
    let logm3Q3 := - logQ3m3 in
    ((#2 * #1) *
      ((((((((((((((((((((((((((((((((((((((((((((((((((((((((((((((((((((((((((((((((((((((((((((((((((((((((((((#120
      * (m32 - mQ32)) * mQ32) * (m32 - msq2)) * (Li2 (#1 - (m32 / msq2)))) * (((mQ32 * msq2) + (m32 * ((#(-5)
      * mQ32) + (#3 * msq2)))) + (pow4 m3))) + (((#600 * msq2) * (pow4 m3)) * (pow4 mQ3))) + ((((#480 * msq2)
      * (Li2 (#1 - (msq2 / mQ32)))) * (pow4 m3)) * (pow4 mQ3))) + ((((#240 * msq2) * logQ3m3) * (pow4 m3)) *
      (pow4 mQ3))) - ((((#600 * msq2) * logQ3mq) * (pow4 m3)) * (pow4 mQ3))) + ((((#240 * msq2) * (pow2
      logQ3mq)) * (pow4 m3)) * (pow4 mQ3))) + (((#8 * (Li2 (#1 - (m32 / mQ32)))) * (pow2 ((- (m32 * mQ3)) +
      (pow3 mQ3)))) * ((((#(-20) * m32) * mQ32) - (#19 * (pow4 m3))) + (#15 * (pow4 mQ3))))) - ((((#360 *
      mQ32) * (Li2 (#1 - (msq2 / mQ32)))) * (pow4 m3)) * (pow4 msq))) - ((((#180 * mQ32) * (pow2 logQ3mq)) *
      (pow4 m3)) * (pow4 msq))) + ((((#240 * m32) * (Li2 (#1 - (msq2 / mQ32)))) * (pow4 mQ3)) * (pow4 msq)))
      + ((((#120 * m32) * (pow2 logQ3mq)) * (pow4 mQ3)) * (pow4 msq))) - (((#360 * mQ32) * msq2) * (pow6
      m3))) + ((((#240 * mQ32) * msq2) * (Li2 (#1 - (msq2 / mQ32)))) * (pow6 m3))) - ((((#360 * mQ32) * msq2)
      * logQ3m3) * (pow6 m3))) + ((((#360 * mQ32) * msq2) * logQ3mq) * (pow6 m3))) + ((((#120 * mQ32) * msq2)
      * (pow2 logQ3mq)) * (pow6 m3))) - ((#10684 * (pow4 mQ3)) * (pow6 m3))) + (((#13512 * lmQ3MR) * (pow4
      mQ3)) * (pow6 m3))) - (((#240 * (Li2 (#1 - (msq2 / mQ32)))) * (pow4 mQ3)) * (pow6 m3))) + (((#19228 *
      logm3Q3) * (pow4 mQ3)) * (pow6 m3))) + ((((#11312 * lmQ3MR) * logm3Q3) * (pow4 mQ3)) * (pow6 m3))) -
      (((#524 * logQ3m3) * (pow4 mQ3)) * (pow6 m3))) + ((((#18144 * lmQ3MR) * logQ3m3) * (pow4 mQ3)) * (pow6
      m3))) + ((((#24360 * logm3Q3) * logQ3m3) * (pow4 mQ3)) * (pow6 m3))) - (((#1680 * logQ3mq) * (pow4
      mQ3)) * (pow6 m3))) + ((((#480 * lmQ3MR) * logQ3mq) * (pow4 mQ3)) * (pow6 m3))) - ((((#2020 * logm3Q3)
      * logQ3mq) * (pow4 mQ3)) * (pow6 m3))) - ((((#1700 * logQ3m3) * logQ3mq) * (pow4 mQ3)) * (pow6 m3))) -
      (((#4688 * (pow2 lmQ3MR)) * (pow4 mQ3)) * (pow6 m3))) + (((#16672 * (pow2 logQ3m3)) * (pow4 mQ3)) *
      (pow6 m3))) - (((#120 * (pow2 logQ3mq)) * (pow4 mQ3)) * (pow6 m3))) - (((#120 * m32) * msq2) * (pow6
      mQ3))) - ((((#720 * m32) * msq2) * (Li2 (#1 - (msq2 / mQ32)))) * (pow6 mQ3))) + ((((#120 * m32) * msq2)
      * logQ3m3) * (pow6 mQ3))) + ((((#120 * m32) * msq2) * logQ3mq) * (pow6 mQ3))) - ((((#360 * m32) * msq2)
      * (pow2 logQ3mq)) * (pow6 mQ3))) + ((#14474 * (pow4 m3)) * (pow6 mQ3))) - (((#14104 * lmQ3MR) * (pow4
      m3)) * (pow6 mQ3))) - (((#120 * (Li2 (#1 - (msq2 / mQ32)))) * (pow4 m3)) * (pow6 mQ3))) - (((#13712 *
      logm3Q3) * (pow4 m3)) * (pow6 mQ3))) - ((((#8064 * lmQ3MR) * logm3Q3) * (pow4 m3)) * (pow6 mQ3))) +
      (((#2504 * logQ3m3) * (pow4 m3)) * (pow6 mQ3))) - ((((#11240 * lmQ3MR) * logQ3m3) * (pow4 m3)) * (pow6
      mQ3))) + ((((#1728 * logm3Q3) * logQ3m3) * (pow4 m3)) * (pow6 mQ3))) + (((#2000 * logQ3mq) * (pow4 m3))
      * (pow6 mQ3))) - ((((#320 * lmQ3MR) * logQ3mq) * (pow4 m3)) * (pow6 mQ3))) + ((((#1440 * logm3Q3) *
      logQ3mq) * (pow4 m3)) * (pow6 mQ3))) + ((((#1000 * logQ3m3) * logQ3mq) * (pow4 m3)) * (pow6 mQ3))) +
      (((#4792 * (pow2 lmQ3MR)) * (pow4 m3)) * (pow6 mQ3))) + (((#2548 * (pow2 logQ3m3)) * (pow4 m3)) * (pow6
      mQ3))) - (((#60 * (pow2 logQ3mq)) * (pow4 m3)) * (pow6 mQ3))) + (((#120 * (Li2 (#1 - (msq2 / mQ32)))) *
      (pow4 msq)) * (pow6 mQ3))) + (((#60 * (pow2 logQ3mq)) * (pow4 msq)) * (pow6 mQ3))) + ((#2463 * mQ32) *
      (pow8 m3))) - (((#5440 * lmQ3MR) * mQ32) * (pow8 m3))) - (((#5680 * mQ32) * logm3Q3) * (pow8 m3))) -
      ((((#7168 * lmQ3MR) * mQ32) * logm3Q3) * (pow8 m3))) - (((#248 * mQ32) * logQ3m3) * (pow8 m3))) -
      ((((#11720 * lmQ3MR) * mQ32) * logQ3m3) * (pow8 m3))) - ((((#21312 * mQ32) * logm3Q3) * logQ3m3) *
      (pow8 m3))) + (((#640 * mQ32) * logQ3mq) * (pow8 m3))) - ((((#320 * lmQ3MR) * mQ32) * logQ3mq) * (pow8
      m3))) + ((((#1280 * mQ32) * logm3Q3) * logQ3mq) * (pow8 m3))) + ((((#1480 * mQ32) * logQ3m3) * logQ3mq)
      * (pow8 m3))) + (((#2292 * mQ32) * (pow2 lmQ3MR)) * (pow8 m3))) - (((#18996 * mQ32) * (pow2 logQ3m3)) *
      (pow8 m3))) - ((#5868 * m32) * (pow8 mQ3))) + (((#6312 * lmQ3MR) * m32) * (pow8 mQ3))) - ((#120 * msq2)
      * (pow8 mQ3))) + (((#480 * m32) * (Li2 (#1 - (msq2 / mQ32)))) * (pow8 mQ3))) - (((#630 * m32) *
      logm3Q3) * (pow8 mQ3))) + ((((#2184 * lmQ3MR) * m32) * logm3Q3) * (pow8 mQ3))) - (((#2142 * m32) *
      logQ3m3) * (pow8 mQ3))) + ((((#2280 * lmQ3MR) * m32) * logQ3m3) * (pow8 mQ3))) - ((((#468 * m32) *
      logm3Q3) * logQ3m3) * (pow8 mQ3))) - (((#1120 * m32) * logQ3mq) * (pow8 mQ3))) + ((((#80 * lmQ3MR) *
      m32) * logQ3mq) * (pow8 mQ3))) + (((#120 * msq2) * logQ3mq) * (pow8 mQ3))) - ((((#390 * m32) * logm3Q3)
      * logQ3mq) * (pow8 mQ3))) - ((((#390 * m32) * logQ3m3) * logQ3mq) * (pow8 mQ3))) - (((#2448 * m32) *
      (pow2 lmQ3MR)) * (pow8 mQ3))) - (((#180 * m32) * (pow2 logQ3m3)) * (pow8 mQ3))) + (((#240 * m32) *
      (pow2 logQ3mq)) * (pow8 mQ3))) - (#176 * (power10 m3))) + ((#624 * lmQ3MR) * (power10 m3))) + ((#794 *
      logm3Q3) * (power10 m3))) + (((#1736 * lmQ3MR) * logm3Q3) * (power10 m3))) + ((#266 * logQ3m3) *
      (power10 m3))) + (((#2536 * lmQ3MR) * logQ3m3) * (power10 m3))) + (((#6572 * logm3Q3) * logQ3m3) *
      (power10 m3))) - ((#80 * logQ3mq) * (power10 m3))) + (((#80 * lmQ3MR) * logQ3mq) * (power10 m3))) -
      (((#310 * logm3Q3) * logQ3mq) * (power10 m3))) - (((#390 * logQ3m3) * logQ3mq) * (power10 m3))) -
      ((#448 * (pow2 lmQ3MR)) * (power10 m3))) + ((#6220 * (pow2 logQ3m3)) * (power10 m3))) - (#209 *
      (power10 mQ3))) - ((#904 * lmQ3MR) * (power10 mQ3))) - ((#120 * (Li2 (#1 - (msq2 / mQ32)))) * (power10
      mQ3))) + ((#144 * logQ3m3) * (power10 mQ3))) + ((#240 * logQ3mq) * (power10 mQ3))) + ((#500 * (pow2
      lmQ3MR)) * (power10 mQ3))) - ((#72 * (pow2 logQ3m3)) * (power10 mQ3))) - ((#60 * (pow2 logQ3mq)) *
      (power10 mQ3)))) / ((#9 * (pow4 (m32 - mQ32))) * (pow6 mQ3)).
Lemma xtt_QU_poly (Li2 : R -> R) (mQ32 m32 mQ3 m3 msq2 msq Xt4 Xt5 Xt6 lmQ3MR : R) : xtt_QU Li2 mQ32 m32 mQ3 m3 msq2 msq Xt4 Xt5 Xt6 lmQ3MR = (xtt_QU_6 Li2 mQ32 m32 mQ3 m3 msq2 msq lmQ3MR * Xt6 + xtt_QU_5 Li2 mQ32 m32 mQ3 m3 msq2 msq lmQ3MR * Xt5 + xtt_QU_4 Li2 mQ32 m32 mQ3 m3 msq2 msq lmQ3MR * Xt4)%R.
Proof. unfold xtt_QU, xtt_QU_6, xtt_QU_5, xtt_QU_4.  unR. unfold Rdiv. first [ring|unfold pow5, pow4, pow3, pow2; unR; ring]. Qed.

Definition xtt_QM_6 (Li2 : R -> R) (mQ32 mU32 mQ3 mU3 msq2 msq lmQ3MR : R) : R :=
    let logQ3U3 := nlog (mQ32 / mU32) in
    let logQ3mq := nlog (mQ32 / msq2) in
    ((((#1280 * mQ32) * #1) * (((#(-2) * mQ32) + (#2 * mU32)) + ((mQ32 + mU32) * logQ3U3))) * (pow2 (((-
      mQ32) + mU32) + (mU32 * logQ3U3)))) / (#3 * (pow7 (mQ32 - mU32))).
Definition xtt_QM_5 (Li2 : R -> R) (mQ32 mU32 mQ3 mU3 msq2 msq lmQ3MR : R) : R :=
    let logQ3U3 := nlog (mQ32 / mU32) in
    let logQ3mq := nlog (mQ32 / msq2) in
    ((#4 * #1) *
      ((((((((((((((((((((((((((((((((((((((((((((((((((((((((((((((((((((((((((((((((((((((((((((((((((((((((((((((((((((((((((((((((((((((((((((#(-3424)
      * mU32) * (pow12 mQ3)) + (((#2208 * lmQ3MR) * mU32) * (pow12 mQ3))) - (((#192 * mU32) * (Li2 (#1 -
      (mQ32 / mU32)))) * (pow12 mQ3))) - (((#160 * mU32) * logQ3mq) * (pow12 mQ3))) + (((#3360 * mU32) *
      logQ3U3) * (pow12 mQ3))) - ((((#2768 * lmQ3MR) * mU32) * logQ3U3) * (pow12 mQ3))) + ((((#224 * mU32) *
      (Li2 (#1 - (mQ32 / mU32)))) * logQ3U3) * (pow12 mQ3))) + ((((#80 * mU32) * logQ3mq) * logQ3U3) * (pow12
      mQ3))) - (#256 * (pow14 mQ3))) + ((#256 * lmQ3MR) * (pow14 mQ3))) + (((#30 * mU32) * (pow12 mQ3)) *
      (pow2 logQ3mq))) - ((((#15 * mU32) * logQ3U3) * (pow12 mQ3)) * (pow2 logQ3mq))) - (((#216 * mU32) *
      (pow12 mQ3)) * (pow2 logQ3U3))) + ((((#256 * lmQ3MR) * mU32) * (pow12 mQ3)) * (pow2 logQ3U3))) -
      (((((#30 * mU32) * (Li2 (#1 - (msq2 / mQ32)))) * (((#(-2) * mQ32) + (#2 * mU32)) + ((mQ32 + mU32) *
      logQ3U3))) * (pow2 (mQ32 - msq2))) * (pow3 (mQ32 - mU32)))) + (((#112 * mU32) * (pow12 mQ3)) * (pow3
      logQ3U3))) - ((((#1920 * (Li2 (#1 - (msq2 / mU32)))) * (pow4 msq)) * (pow4 mU3)) * (pow6 mQ3))) +
      (((((#1920 * logQ3mq) * logQ3U3) * (pow4 msq)) * (pow4 mU3)) * (pow6 mQ3))) - ((((#1080 * (pow2
      logQ3mq)) * (pow4 msq)) * (pow4 mU3)) * (pow6 mQ3))) + (((((#30 * logQ3U3) * (pow2 logQ3mq)) * (pow4
      msq)) * (pow4 mU3)) * (pow6 mQ3))) - ((((#960 * (pow2 logQ3U3)) * (pow4 msq)) * (pow4 mU3)) * (pow6
      mQ3))) + ((((#960 * (Li2 (#1 - (msq2 / mU32)))) * (pow4 mQ3)) * (pow4 msq)) * (pow6 mU3))) + (((((#480
      * (Li2 (#1 - (msq2 / mU32)))) * logQ3U3) * (pow4 mQ3)) * (pow4 msq)) * (pow6 mU3))) - (((((#960 *
      logQ3mq) * logQ3U3) * (pow4 mQ3)) * (pow4 msq)) * (pow6 mU3))) + ((((#660 * (pow2 logQ3mq)) * (pow4
      mQ3)) * (pow4 msq)) * (pow6 mU3))) + (((((#240 * logQ3U3) * (pow2 logQ3mq)) * (pow4 mQ3)) * (pow4 msq))
      * (pow6 mU3))) + ((((#480 * (pow2 logQ3U3)) * (pow4 mQ3)) * (pow4 msq)) * (pow6 mU3))) - (((((#480 *
      logQ3mq) * (pow2 logQ3U3)) * (pow4 mQ3)) * (pow4 msq)) * (pow6 mU3))) + ((((#240 * (pow3 logQ3U3)) *
      (pow4 mQ3)) * (pow4 msq)) * (pow6 mU3))) + (((#2880 * msq2) * (pow6 mQ3)) * (pow6 mU3))) + ((((#3840 *
      msq2) * (Li2 (#1 - (msq2 / mU32)))) * (pow6 mQ3)) * (pow6 mU3))) - ((((#2880 * msq2) * logQ3mq) * (pow6
      mQ3)) * (pow6 mU3))) + ((((#2400 * msq2) * logQ3U3) * (pow6 mQ3)) * (pow6 mU3))) - (((((#4320 * msq2) *
      logQ3mq) * logQ3U3) * (pow6 mQ3)) * (pow6 mU3))) + ((((#1560 * msq2) * (pow2 logQ3mq)) * (pow6 mQ3)) *
      (pow6 mU3))) + ((((#1920 * msq2) * (pow2 logQ3U3)) * (pow6 mQ3)) * (pow6 mU3))) + ((((#960 * mU32) *
      (Li2 (#1 - (msq2 / mU32)))) * (pow4 msq)) * (pow8 mQ3))) - (((((#480 * mU32) * (Li2 (#1 - (msq2 /
      mU32)))) * logQ3U3) * (pow4 msq)) * (pow8 mQ3))) - (((((#960 * mU32) * logQ3mq) * logQ3U3) * (pow4
      msq)) * (pow8 mQ3))) + ((((#510 * mU32) * (pow2 logQ3mq)) * (pow4 msq)) * (pow8 mQ3))) - (((((#255 *
      mU32) * logQ3U3) * (pow2 logQ3mq)) * (pow4 msq)) * (pow8 mQ3))) + ((((#480 * mU32) * (pow2 logQ3U3)) *
      (pow4 msq)) * (pow8 mQ3))) + (((((#480 * mU32) * logQ3mq) * (pow2 logQ3U3)) * (pow4 msq)) * (pow8
      mQ3))) - ((((#240 * mU32) * (pow3 logQ3U3)) * (pow4 msq)) * (pow8 mQ3))) - (((#2880 * msq2) * (pow4
      mU3)) * (pow8 mQ3))) - ((((#1920 * msq2) * (Li2 (#1 - (msq2 / mU32)))) * (pow4 mU3)) * (pow8 mQ3))) +
      ((((#2880 * msq2) * logQ3mq) * (pow4 mU3)) * (pow8 mQ3))) - ((((#480 * msq2) * logQ3U3) * (pow4 mU3)) *
      (pow8 mQ3))) + (((((#960 * msq2) * (Li2 (#1 - (msq2 / mU32)))) * logQ3U3) * (pow4 mU3)) * (pow8 mQ3)))
      + (((((#1440 * msq2) * logQ3mq) * logQ3U3) * (pow4 mU3)) * (pow8 mQ3))) - ((((#720 * msq2) * (pow2
      logQ3mq)) * (pow4 mU3)) * (pow8 mQ3))) + (((((#420 * msq2) * logQ3U3) * (pow2 logQ3mq)) * (pow4 mU3)) *
      (pow8 mQ3))) - ((((#480 * msq2) * (pow2 logQ3U3)) * (pow4 mU3)) * (pow8 mQ3))) - (((((#960 * msq2) *
      logQ3mq) * (pow2 logQ3U3)) * (pow4 mU3)) * (pow8 mQ3))) + ((((#480 * msq2) * (pow3 logQ3U3)) * (pow4
      mU3)) * (pow8 mQ3))) - ((#24128 * (pow6 mU3)) * (pow8 mQ3))) + (((#18560 * lmQ3MR) * (pow6 mU3)) *
      (pow8 mQ3))) - (((#1152 * (Li2 (#1 - (mQ32 / mU32)))) * (pow6 mU3)) * (pow8 mQ3))) + (((#960 * (Li2 (#1
      - (msq2 / mU32)))) * (pow6 mU3)) * (pow8 mQ3))) - (((#960 * logQ3mq) * (pow6 mU3)) * (pow8 mQ3))) -
      (((#12160 * logQ3U3) * (pow6 mU3)) * (pow8 mQ3))) + ((((#4256 * lmQ3MR) * logQ3U3) * (pow6 mU3)) *
      (pow8 mQ3))) + ((((#768 * (Li2 (#1 - (mQ32 / mU32)))) * logQ3U3) * (pow6 mU3)) * (pow8 mQ3))) -
      ((((#480 * (Li2 (#1 - (msq2 / mU32)))) * logQ3U3) * (pow6 mU3)) * (pow8 mQ3))) - ((((#480 * logQ3mq) *
      logQ3U3) * (pow6 mU3)) * (pow8 mQ3))) + (((#660 * (pow2 logQ3mq)) * (pow6 mU3)) * (pow8 mQ3))) -
      ((((#240 * logQ3U3) * (pow2 logQ3mq)) * (pow6 mU3)) * (pow8 mQ3))) + (((#704 * (pow2 logQ3U3)) * (pow6
      mU3)) * (pow8 mQ3))) - ((((#2528 * lmQ3MR) * (pow2 logQ3U3)) * (pow6 mU3)) * (pow8 mQ3))) + ((((#80 *
      logQ3mq) * (pow2 logQ3U3)) * (pow6 mU3)) * (pow8 mQ3))) + (((#1352 * (pow3 logQ3U3)) * (pow6 mU3)) *
      (pow8 mQ3))) - (((((#30 * (mQ32 - mU32)) * mU32) * (Li2 (#1 - (mQ32 / msq2)))) * (((#(-2) * mQ32) + (#2
      * mU32)) + ((mQ32 + mU32) * logQ3U3))) * ((((((((#(-2) * mQ32) * msq2) * mU32) * (msq2 + mU32)) +
      ((pow4 msq) * (pow4 mU3))) + ((pow4 mQ3) * ((((#(-28) * msq2) * mU32) + (#17 * (pow4 msq))) + (#17 *
      (pow4 mU3))))) - ((#2 * (msq2 + mU32)) * (pow6 mQ3))) + (pow8 mQ3)))) - (((#960 * msq2) * (pow4 mQ3)) *
      (pow8 mU3))) - ((((#1920 * msq2) * (Li2 (#1 - (msq2 / mU32)))) * (pow4 mQ3)) * (pow8 mU3))) + ((((#960
      * msq2) * logQ3mq) * (pow4 mQ3)) * (pow8 mU3))) - ((((#1440 * msq2) * logQ3U3) * (pow4 mQ3)) * (pow8
      mU3))) - (((((#960 * msq2) * (Li2 (#1 - (msq2 / mU32)))) * logQ3U3) * (pow4 mQ3)) * (pow8 mU3))) +
      (((((#2400 * msq2) * logQ3mq) * logQ3U3) * (pow4 mQ3)) * (pow8 mU3))) - ((((#720 * msq2) * (pow2
      logQ3mq)) * (pow4 mQ3)) * (pow8 mU3))) - (((((#420 * msq2) * logQ3U3) * (pow2 logQ3mq)) * (pow4 mQ3)) *
      (pow8 mU3))) - ((((#1440 * msq2) * (pow2 logQ3U3)) * (pow4 mQ3)) * (pow8 mU3))) + (((((#960 * msq2) *
      logQ3mq) * (pow2 logQ3U3)) * (pow4 mQ3)) * (pow8 mU3))) - ((((#480 * msq2) * (pow3 logQ3U3)) * (pow4
      mQ3)) * (pow8 mU3))) - ((((#120 * mQ32) * (pow2 logQ3mq)) * (pow4 msq)) * (pow8 mU3))) - (((((#30 *
      mQ32) * logQ3U3) * (pow2 logQ3mq)) * (pow4 msq)) * (pow8 mU3))) + ((#16000 * (pow6 mQ3)) * (pow8 mU3)))
      - (((#12864 * lmQ3MR) * (pow6 mQ3)) * (pow8 mU3))) + (((#768 * (Li2 (#1 - (mQ32 / mU32)))) * (pow6
      mQ3)) * (pow8 mU3))) - (((#1920 * (Li2 (#1 - (msq2 / mU32)))) * (pow6 mQ3)) * (pow8 mU3))) + (((#640 *
      logQ3mq) * (pow6 mQ3)) * (pow8 mU3))) + (((#17600 * logQ3U3) * (pow6 mQ3)) * (pow8 mU3))) - ((((#9920 *
      lmQ3MR) * logQ3U3) * (pow6 mQ3)) * (pow8 mU3))) - ((((#320 * (Li2 (#1 - (mQ32 / mU32)))) * logQ3U3) *
      (pow6 mQ3)) * (pow8 mU3))) + ((((#640 * logQ3mq) * logQ3U3) * (pow6 mQ3)) * (pow8 mU3))) - (((#1080 *
      (pow2 logQ3mq)) * (pow6 mQ3)) * (pow8 mU3))) - ((((#30 * logQ3U3) * (pow2 logQ3mq)) * (pow6 mQ3)) *
      (pow8 mU3))) + (((#5872 * (pow2 logQ3U3)) * (pow6 mQ3)) * (pow8 mU3))) - ((((#448 * lmQ3MR) * (pow2
      logQ3U3)) * (pow6 mQ3)) * (pow8 mU3))) + ((((#80 * logQ3mq) * (pow2 logQ3U3)) * (pow6 mQ3)) * (pow8
      mU3))) + (((#232 * (pow3 logQ3U3)) * (pow6 mQ3)) * (pow8 mU3))) + (((#960 * msq2) * mU32) * (power10
      mQ3))) - ((((#960 * msq2) * mU32) * logQ3mq) * (power10 mQ3))) - ((((#480 * msq2) * mU32) * logQ3U3) *
      (power10 mQ3))) + (((((#480 * msq2) * mU32) * logQ3mq) * logQ3U3) * (power10 mQ3))) - ((((#60 * msq2) *
      mU32) * (pow2 logQ3mq)) * (power10 mQ3))) + (((((#30 * msq2) * mU32) * logQ3U3) * (pow2 logQ3mq)) *
      (power10 mQ3))) + ((#15744 * (pow4 mU3)) * (power10 mQ3))) - (((#11456 * lmQ3MR) * (pow4 mU3)) *
      (power10 mQ3))) + (((#768 * (Li2 (#1 - (mQ32 / mU32)))) * (pow4 mU3)) * (power10 mQ3))) + (((#640 *
      logQ3mq) * (pow4 mU3)) * (power10 mQ3))) - (((#2240 * logQ3U3) * (pow4 mU3)) * (power10 mQ3))) +
      ((((#4160 * lmQ3MR) * logQ3U3) * (pow4 mU3)) * (power10 mQ3))) - ((((#704 * (Li2 (#1 - (mQ32 / mU32))))
      * logQ3U3) * (pow4 mU3)) * (power10 mQ3))) - (((#120 * (pow2 logQ3mq)) * (pow4 mU3)) * (power10 mQ3)))
      + ((((#30 * logQ3U3) * (pow2 logQ3mq)) * (pow4 mU3)) * (power10 mQ3))) - (((#2480 * (pow2 logQ3U3)) *
      (pow4 mU3)) * (power10 mQ3))) + ((((#1472 * lmQ3MR) * (pow2 logQ3U3)) * (pow4 mU3)) * (power10 mQ3))) -
      ((((#80 * logQ3mq) * (pow2 logQ3U3)) * (pow4 mU3)) * (power10 mQ3))) - (((#616 * (pow3 logQ3U3)) *
      (pow4 mU3)) * (power10 mQ3))) - ((((#60 * mQ32) * msq2) * (pow2 logQ3mq)) * (power10 mU3))) - (((((#30
      * mQ32) * msq2) * logQ3U3) * (pow2 logQ3mq)) * (power10 mU3))) - ((#3936 * (pow4 mQ3)) * (power10
      mU3))) + (((#3296 * lmQ3MR) * (pow4 mQ3)) * (power10 mU3))) - (((#192 * (Li2 (#1 - (mQ32 / mU32)))) *
      (pow4 mQ3)) * (power10 mU3))) + (((#960 * (Li2 (#1 - (msq2 / mU32)))) * (pow4 mQ3)) * (power10 mU3))) -
      (((#160 * logQ3mq) * (pow4 mQ3)) * (power10 mU3))) - (((#6560 * logQ3U3) * (pow4 mQ3)) * (power10
      mU3))) + ((((#4272 * lmQ3MR) * logQ3U3) * (pow4 mQ3)) * (power10 mU3))) + ((((#32 * (Li2 (#1 - (mQ32 /
      mU32)))) * logQ3U3) * (pow4 mQ3)) * (power10 mU3))) + ((((#480 * (Li2 (#1 - (msq2 / mU32)))) * logQ3U3)
      * (pow4 mQ3)) * (power10 mU3))) - ((((#240 * logQ3mq) * logQ3U3) * (pow4 mQ3)) * (power10 mU3))) +
      (((#510 * (pow2 logQ3mq)) * (pow4 mQ3)) * (power10 mU3))) + ((((#255 * logQ3U3) * (pow2 logQ3mq)) *
      (pow4 mQ3)) * (power10 mU3))) - (((#3880 * (pow2 logQ3U3)) * (pow4 mQ3)) * (power10 mU3))) + ((((#1248
      * lmQ3MR) * (pow2 logQ3U3)) * (pow4 mQ3)) * (power10 mU3))) - ((((#80 * logQ3mq) * (pow2 logQ3U3)) *
      (pow4 mQ3)) * (power10 mU3))) - (((#824 * (pow3 logQ3U3)) * (pow4 mQ3)) * (power10 mU3))) + (((#30 *
      (pow2 logQ3mq)) * (pow4 msq)) * (power10 mU3))) + ((((#15 * logQ3U3) * (pow2 logQ3mq)) * (pow4 msq)) *
      (power10 mU3)))) / (((#3 * mU32) * (pow3 mQ3)) * (pow7 (mQ32 - mU32))).
Definition xtt_QM_4 (Li2 : R -> R) (mQ32 mU32 mQ3 mU3 msq2 msq lmQ3MR : R) : R :=
    let logQ3U3 := nlog (mQ32 / mU32) in
    let logQ3mq := nlog (mQ32 / msq2) in
    - ((#1 *
      (((((((((((((((((((((((((((((((((((((((((((((((((((((((((((((((((((((((((((((((((((((((((((((((((((((((((((((((((((((((((((((((((((((((((((((((((((((((((((((((((((((((((((((((((((((((((((((((((((((((((((((((((((((((((((((((((((((((((((((((((((((((((((((((((((((((((((((((((((((((((((((((((((((((((((((((((((((((((((((((((((((((((((((((((((((((((((((((((((((((((((#122320
      * msq2) * mU32) * (pow14 mQ3)) - ((((#6560 * lmQ3MR) * msq2) * mU32) * (pow14 mQ3))) + ((((#40992 *
      msq2) * mU32) * (Li2 (#1 - (mQ32 / mU32)))) * (pow14 mQ3))) - (((((#5376 * lmQ3MR) * msq2) * mU32) *
      (Li2 (#1 - (mQ32 / mU32)))) * (pow14 mQ3))) + ((((#5760 * msq2) * mU32) * (Li2 (#1 - (msq2 / mU32)))) *
      (pow14 mQ3))) - ((((#5280 * msq2) * mU32) * logQ3mq) * (pow14 mQ3))) - (((((#3840 * lmQ3MR) * msq2) *
      mU32) * logQ3mq) * (pow14 mQ3))) + (((((#960 * msq2) * mU32) * (Li2 (#1 - (mQ32 / mU32)))) * logQ3mq) *
      (pow14 mQ3))) - ((((#45464 * msq2) * mU32) * logQ3U3) * (pow14 mQ3))) - (((((#26288 * lmQ3MR) * msq2) *
      mU32) * logQ3U3) * (pow14 mQ3))) - (((((#8208 * msq2) * mU32) * (Li2 (#1 - (mQ32 / mU32)))) * logQ3U3)
      * (pow14 mQ3))) - (((((#2880 * msq2) * mU32) * (Li2 (#1 - (msq2 / mU32)))) * logQ3U3) * (pow14 mQ3))) +
      (((((#720 * msq2) * mU32) * logQ3mq) * logQ3U3) * (pow14 mQ3))) - ((((((#1920 * lmQ3MR) * msq2) * mU32)
      * logQ3mq) * logQ3U3) * (pow14 mQ3))) + ((#192 * msq2) * (pow16 mQ3))) + (((#5184 * lmQ3MR) * msq2) *
      (pow16 mQ3))) - ((#130960 * mU32) * (pow16 mQ3))) + (((#6560 * lmQ3MR) * mU32) * (pow16 mQ3))) -
      (((#40992 * mU32) * (Li2 (#1 - (mQ32 / mU32)))) * (pow16 mQ3))) + ((((#5376 * lmQ3MR) * mU32) * (Li2
      (#1 - (mQ32 / mU32)))) * (pow16 mQ3))) - (((#960 * msq2) * logQ3mq) * (pow16 mQ3))) + ((((#960 *
      lmQ3MR) * msq2) * logQ3mq) * (pow16 mQ3))) + (((#12000 * mU32) * logQ3mq) * (pow16 mQ3))) + ((((#3840 *
      lmQ3MR) * mU32) * logQ3mq) * (pow16 mQ3))) - ((((#960 * mU32) * (Li2 (#1 - (mQ32 / mU32)))) * logQ3mq)
      * (pow16 mQ3))) - (((#96 * msq2) * logQ3U3) * (pow16 mQ3))) + ((((#96 * lmQ3MR) * msq2) * logQ3U3) *
      (pow16 mQ3))) + (((#49784 * mU32) * logQ3U3) * (pow16 mQ3))) + ((((#26288 * lmQ3MR) * mU32) * logQ3U3)
      * (pow16 mQ3))) + ((((#8208 * mU32) * (Li2 (#1 - (mQ32 / mU32)))) * logQ3U3) * (pow16 mQ3))) -
      ((((#9840 * mU32) * logQ3mq) * logQ3U3) * (pow16 mQ3))) + (((((#1920 * lmQ3MR) * mU32) * logQ3mq) *
      logQ3U3) * (pow16 mQ3))) - (#192 * (pow18 mQ3))) - ((#5184 * lmQ3MR) * (pow18 mQ3))) + ((#960 *
      logQ3mq) * (pow18 mQ3))) - (((#960 * lmQ3MR) * logQ3mq) * (pow18 mQ3))) + ((#96 * logQ3U3) * (pow18
      mQ3))) - (((#96 * lmQ3MR) * logQ3U3) * (pow18 mQ3))) - ((((#2496 * msq2) * mU32) * (pow14 mQ3)) * (pow2
      lmQ3MR))) + (((((#22752 * msq2) * mU32) * logQ3U3) * (pow14 mQ3)) * (pow2 lmQ3MR))) - (((#5376 * msq2)
      * (pow16 mQ3)) * (pow2 lmQ3MR))) + (((#2496 * mU32) * (pow16 mQ3)) * (pow2 lmQ3MR))) - ((((#22752 *
      mU32) * logQ3U3) * (pow16 mQ3)) * (pow2 lmQ3MR))) + ((#5376 * (pow18 mQ3)) * (pow2 lmQ3MR))) +
      ((((#3330 * msq2) * mU32) * (pow14 mQ3)) * (pow2 logQ3mq))) - (((((#1665 * msq2) * mU32) * logQ3U3) *
      (pow14 mQ3)) * (pow2 logQ3mq))) - (((#270 * mU32) * (pow16 mQ3)) * (pow2 logQ3mq))) + ((((#135 * mU32)
      * logQ3U3) * (pow16 mQ3)) * (pow2 logQ3mq))) + ((((#21480 * msq2) * mU32) * (pow14 mQ3)) * (pow2
      logQ3U3))) - (((((#2496 * lmQ3MR) * msq2) * mU32) * (pow14 mQ3)) * (pow2 logQ3U3))) + (((((#3840 *
      msq2) * mU32) * logQ3mq) * (pow14 mQ3)) * (pow2 logQ3U3))) - (((#18600 * mU32) * (pow16 mQ3)) * (pow2
      logQ3U3))) + ((((#2496 * lmQ3MR) * mU32) * (pow16 mQ3)) * (pow2 logQ3U3))) - ((((#960 * mU32) *
      logQ3mq) * (pow16 mQ3)) * (pow2 logQ3U3))) - ((((#5640 * msq2) * mU32) * (pow14 mQ3)) * (pow3
      logQ3U3))) + (((#4200 * mU32) * (pow16 mQ3)) * (pow3 logQ3U3))) - (((#29968 * msq2) * (pow12 mU3)) *
      (pow4 mQ3))) - ((((#58720 * lmQ3MR) * msq2) * (pow12 mU3)) * (pow4 mQ3))) + ((((#3936 * msq2) * (Li2
      (#1 - (mQ32 / mU32)))) * (pow12 mU3)) * (pow4 mQ3))) + (((((#5376 * lmQ3MR) * msq2) * (Li2 (#1 - (mQ32
      / mU32)))) * (pow12 mU3)) * (pow4 mQ3))) - ((((#2880 * msq2) * (Li2 (#1 - (msq2 / mU32)))) * (pow12
      mU3)) * (pow4 mQ3))) + ((((#17760 * msq2) * logQ3mq) * (pow12 mU3)) * (pow4 mQ3))) - (((((#960 *
      lmQ3MR) * msq2) * logQ3mq) * (pow12 mU3)) * (pow4 mQ3))) - (((((#960 * msq2) * (Li2 (#1 - (mQ32 /
      mU32)))) * logQ3mq) * (pow12 mU3)) * (pow4 mQ3))) + ((((#520 * msq2) * logQ3U3) * (pow12 mU3)) * (pow4
      mQ3))) - (((((#63920 * lmQ3MR) * msq2) * logQ3U3) * (pow12 mU3)) * (pow4 mQ3))) - (((((#528 * msq2) *
      (Li2 (#1 - (mQ32 / mU32)))) * logQ3U3) * (pow12 mU3)) * (pow4 mQ3))) - (((((#1440 * msq2) * (Li2 (#1 -
      (msq2 / mU32)))) * logQ3U3) * (pow12 mU3)) * (pow4 mQ3))) + (((((#13200 * msq2) * logQ3mq) * logQ3U3) *
      (pow12 mU3)) * (pow4 mQ3))) + ((((#29376 * msq2) * (pow12 mU3)) * (pow2 lmQ3MR)) * (pow4 mQ3))) +
      (((((#12000 * msq2) * logQ3U3) * (pow12 mU3)) * (pow2 lmQ3MR)) * (pow4 mQ3))) - ((((#1890 * msq2) *
      (pow12 mU3)) * (pow2 logQ3mq)) * (pow4 mQ3))) - (((((#945 * msq2) * logQ3U3) * (pow12 mU3)) * (pow2
      logQ3mq)) * (pow4 mQ3))) + ((((#14616 * msq2) * (pow12 mU3)) * (pow2 logQ3U3)) * (pow4 mQ3))) -
      (((((#17376 * lmQ3MR) * msq2) * (pow12 mU3)) * (pow2 logQ3U3)) * (pow4 mQ3))) + (((((#2400 * msq2) *
      logQ3mq) * (pow12 mU3)) * (pow2 logQ3U3)) * (pow4 mQ3))) + ((((#4056 * msq2) * (pow12 mU3)) * (pow3
      logQ3U3)) * (pow4 mQ3))) + (((#8640 * mU32) * (pow12 mQ3)) * (pow4 msq))) - ((((#14400 * mU32) * (Li2
      (#1 - (msq2 / mU32)))) * (pow12 mQ3)) * (pow4 msq))) - ((((#8640 * mU32) * logQ3mq) * (pow12 mQ3)) *
      (pow4 msq))) - ((((#4320 * mU32) * logQ3U3) * (pow12 mQ3)) * (pow4 msq))) + (((((#7200 * mU32) * (Li2
      (#1 - (msq2 / mU32)))) * logQ3U3) * (pow12 mQ3)) * (pow4 msq))) + (((((#18720 * mU32) * logQ3mq) *
      logQ3U3) * (pow12 mQ3)) * (pow4 msq))) - ((((#7290 * mU32) * (pow12 mQ3)) * (pow2 logQ3mq)) * (pow4
      msq))) + (((((#3645 * mU32) * logQ3U3) * (pow12 mQ3)) * (pow2 logQ3mq)) * (pow4 msq))) + ((((#90 *
      mQ32) * (pow12 mU3)) * (pow2 logQ3mq)) * (pow4 msq))) + (((((#45 * mQ32) * logQ3U3) * (pow12 mU3)) *
      (pow2 logQ3mq)) * (pow4 msq))) - ((((#7200 * mU32) * (pow12 mQ3)) * (pow2 logQ3U3)) * (pow4 msq))) -
      (((((#7200 * mU32) * logQ3mq) * (pow12 mQ3)) * (pow2 logQ3U3)) * (pow4 msq))) + ((((#3600 * mU32) *
      (pow12 mQ3)) * (pow3 logQ3U3)) * (pow4 msq))) - (((#536144 * msq2) * (pow12 mQ3)) * (pow4 mU3))) -
      ((((#85088 * lmQ3MR) * msq2) * (pow12 mQ3)) * (pow4 mU3))) - ((((#155424 * msq2) * (Li2 (#1 - (mQ32 /
      mU32)))) * (pow12 mQ3)) * (pow4 mU3))) + (((((#26880 * lmQ3MR) * msq2) * (Li2 (#1 - (mQ32 / mU32)))) *
      (pow12 mQ3)) * (pow4 mU3))) + ((((#11520 * msq2) * (Li2 (#1 - (msq2 / mU32)))) * (pow12 mQ3)) * (pow4
      mU3))) + ((((#60000 * msq2) * logQ3mq) * (pow12 mQ3)) * (pow4 mU3))) + (((((#4800 * lmQ3MR) * msq2) *
      logQ3mq) * (pow12 mQ3)) * (pow4 mU3))) - (((((#4800 * msq2) * (Li2 (#1 - (mQ32 / mU32)))) * logQ3mq) *
      (pow12 mQ3)) * (pow4 mU3))) + ((((#13032 * msq2) * logQ3U3) * (pow12 mQ3)) * (pow4 mU3))) +
      (((((#119760 * lmQ3MR) * msq2) * logQ3U3) * (pow12 mQ3)) * (pow4 mU3))) - (((((#14928 * msq2) * (Li2
      (#1 - (mQ32 / mU32)))) * logQ3U3) * (pow12 mQ3)) * (pow4 mU3))) - (((((#11520 * msq2) * (Li2 (#1 -
      (msq2 / mU32)))) * logQ3U3) * (pow12 mQ3)) * (pow4 mU3))) - (((((#30960 * msq2) * logQ3mq) * logQ3U3) *
      (pow12 mQ3)) * (pow4 mU3))) + ((((((#7680 * lmQ3MR) * msq2) * logQ3mq) * logQ3U3) * (pow12 mQ3)) *
      (pow4 mU3))) + ((#559184 * (pow14 mQ3)) * (pow4 mU3))) + (((#85088 * lmQ3MR) * (pow14 mQ3)) * (pow4
      mU3))) + (((#155424 * (Li2 (#1 - (mQ32 / mU32)))) * (pow14 mQ3)) * (pow4 mU3))) - ((((#26880 * lmQ3MR)
      * (Li2 (#1 - (mQ32 / mU32)))) * (pow14 mQ3)) * (pow4 mU3))) - (((#5760 * (Li2 (#1 - (msq2 / mU32)))) *
      (pow14 mQ3)) * (pow4 mU3))) - (((#73440 * logQ3mq) * (pow14 mQ3)) * (pow4 mU3))) - ((((#4800 * lmQ3MR)
      * logQ3mq) * (pow14 mQ3)) * (pow4 mU3))) + ((((#4800 * (Li2 (#1 - (mQ32 / mU32)))) * logQ3mq) * (pow14
      mQ3)) * (pow4 mU3))) - (((#7272 * logQ3U3) * (pow14 mQ3)) * (pow4 mU3))) - ((((#119760 * lmQ3MR) *
      logQ3U3) * (pow14 mQ3)) * (pow4 mU3))) + ((((#14928 * (Li2 (#1 - (mQ32 / mU32)))) * logQ3U3) * (pow14
      mQ3)) * (pow4 mU3))) + ((((#2880 * (Li2 (#1 - (msq2 / mU32)))) * logQ3U3) * (pow14 mQ3)) * (pow4 mU3)))
      + ((((#25200 * logQ3mq) * logQ3U3) * (pow14 mQ3)) * (pow4 mU3))) - (((((#7680 * lmQ3MR) * logQ3mq) *
      logQ3U3) * (pow14 mQ3)) * (pow4 mU3))) + ((((#93120 * msq2) * (pow12 mQ3)) * (pow2 lmQ3MR)) * (pow4
      mU3))) - (((((#79008 * msq2) * logQ3U3) * (pow12 mQ3)) * (pow2 lmQ3MR)) * (pow4 mU3))) - (((#93120 *
      (pow14 mQ3)) * (pow2 lmQ3MR)) * (pow4 mU3))) + ((((#79008 * logQ3U3) * (pow14 mQ3)) * (pow2 lmQ3MR)) *
      (pow4 mU3))) + ((((#3510 * msq2) * (pow12 mQ3)) * (pow2 logQ3mq)) * (pow4 mU3))) - (((((#5085 * msq2) *
      logQ3U3) * (pow12 mQ3)) * (pow2 logQ3mq)) * (pow4 mU3))) - (((#1530 * (pow14 mQ3)) * (pow2 logQ3mq)) *
      (pow4 mU3))) + ((((#1035 * logQ3U3) * (pow14 mQ3)) * (pow2 logQ3mq)) * (pow4 mU3))) - ((((#27816 *
      msq2) * (pow12 mQ3)) * (pow2 logQ3U3)) * (pow4 mU3))) + (((((#18240 * lmQ3MR) * msq2) * (pow12 mQ3)) *
      (pow2 logQ3U3)) * (pow4 mU3))) + (((((#1920 * msq2) * logQ3mq) * (pow12 mQ3)) * (pow2 logQ3U3)) * (pow4
      mU3))) + (((#26376 * (pow14 mQ3)) * (pow2 logQ3U3)) * (pow4 mU3))) - ((((#18240 * lmQ3MR) * (pow14
      mQ3)) * (pow2 logQ3U3)) * (pow4 mU3))) + ((((#6720 * logQ3mq) * (pow14 mQ3)) * (pow2 logQ3U3)) * (pow4
      mU3))) - ((((#16200 * msq2) * (pow12 mQ3)) * (pow3 logQ3U3)) * (pow4 mU3))) + (((#11880 * (pow14 mQ3))
      * (pow3 logQ3U3)) * (pow4 mU3))) + ((((((#90 * ((#3 * mQ32) + msq2)) * mU32) * (Li2 (#1 - (msq2 /
      mQ32)))) * (((#(-2) * mQ32) + (#2 * mU32)) + ((mQ32 + mU32) * logQ3U3))) * (pow2 (mQ32 - msq2))) *
      (pow4 (mQ32 - mU32)))) + ((#29968 * (pow12 mU3)) * (pow6 mQ3))) + (((#58720 * lmQ3MR) * (pow12 mU3)) *
      (pow6 mQ3))) - (((#3936 * (Li2 (#1 - (mQ32 / mU32)))) * (pow12 mU3)) * (pow6 mQ3))) - ((((#5376 *
      lmQ3MR) * (Li2 (#1 - (mQ32 / mU32)))) * (pow12 mU3)) * (pow6 mQ3))) + (((#2880 * (Li2 (#1 - (msq2 /
      mU32)))) * (pow12 mU3)) * (pow6 mQ3))) - (((#15840 * logQ3mq) * (pow12 mU3)) * (pow6 mQ3))) + ((((#960
      * lmQ3MR) * logQ3mq) * (pow12 mU3)) * (pow6 mQ3))) + ((((#960 * (Li2 (#1 - (mQ32 / mU32)))) * logQ3mq)
      * (pow12 mU3)) * (pow6 mQ3))) - (((#520 * logQ3U3) * (pow12 mU3)) * (pow6 mQ3))) + ((((#63920 * lmQ3MR)
      * logQ3U3) * (pow12 mU3)) * (pow6 mQ3))) + ((((#528 * (Li2 (#1 - (mQ32 / mU32)))) * logQ3U3) * (pow12
      mU3)) * (pow6 mQ3))) + ((((#1440 * (Li2 (#1 - (msq2 / mU32)))) * logQ3U3) * (pow12 mU3)) * (pow6 mQ3)))
      - ((((#12240 * logQ3mq) * logQ3U3) * (pow12 mU3)) * (pow6 mQ3))) - (((#29376 * (pow12 mU3)) * (pow2
      lmQ3MR)) * (pow6 mQ3))) - ((((#12000 * logQ3U3) * (pow12 mU3)) * (pow2 lmQ3MR)) * (pow6 mQ3))) +
      (((#1710 * (pow12 mU3)) * (pow2 logQ3mq)) * (pow6 mQ3))) + ((((#855 * logQ3U3) * (pow12 mU3)) * (pow2
      logQ3mq)) * (pow6 mQ3))) - (((#14616 * (pow12 mU3)) * (pow2 logQ3U3)) * (pow6 mQ3))) + ((((#17376 *
      lmQ3MR) * (pow12 mU3)) * (pow2 logQ3U3)) * (pow6 mQ3))) - ((((#2400 * logQ3mq) * (pow12 mU3)) * (pow2
      logQ3U3)) * (pow6 mQ3))) - (((#4056 * (pow12 mU3)) * (pow3 logQ3U3)) * (pow6 mQ3))) + (((#90 * (pow12
      mU3)) * (pow2 logQ3mq)) * (pow6 msq))) + ((((#45 * logQ3U3) * (pow12 mU3)) * (pow2 logQ3mq)) * (pow6
      msq))) - ((#919840 * (pow12 mQ3)) * (pow6 mU3))) - (((#301504 * lmQ3MR) * (pow12 mQ3)) * (pow6 mU3))) -
      (((#216384 * (Li2 (#1 - (mQ32 / mU32)))) * (pow12 mQ3)) * (pow6 mU3))) + ((((#53760 * lmQ3MR) * (Li2
      (#1 - (mQ32 / mU32)))) * (pow12 mQ3)) * (pow6 mU3))) + (((#2880 * (Li2 (#1 - (msq2 / mU32)))) * (pow12
      mQ3)) * (pow6 mU3))) + (((#154560 * logQ3mq) * (pow12 mQ3)) * (pow6 mU3))) - ((((#9600 * (Li2 (#1 -
      (mQ32 / mU32)))) * logQ3mq) * (pow12 mQ3)) * (pow6 mU3))) - (((#284624 * logQ3U3) * (pow12 mQ3)) *
      (pow6 mU3))) + ((((#137056 * lmQ3MR) * logQ3U3) * (pow12 mQ3)) * (pow6 mU3))) - ((((#89952 * (Li2 (#1 -
      (mQ32 / mU32)))) * logQ3U3) * (pow12 mQ3)) * (pow6 mU3))) + ((((#4320 * (Li2 (#1 - (msq2 / mU32)))) *
      logQ3U3) * (pow12 mQ3)) * (pow6 mU3))) - ((((#4320 * logQ3mq) * logQ3U3) * (pow12 mQ3)) * (pow6 mU3)))
      + (((((#11520 * lmQ3MR) * logQ3mq) * logQ3U3) * (pow12 mQ3)) * (pow6 mU3))) + (((#240000 * (pow12 mQ3))
      * (pow2 lmQ3MR)) * (pow6 mU3))) - ((((#88512 * logQ3U3) * (pow12 mQ3)) * (pow2 lmQ3MR)) * (pow6 mU3)))
      - (((#1260 * (pow12 mQ3)) * (pow2 logQ3mq)) * (pow6 mU3))) + ((((#2430 * logQ3U3) * (pow12 mQ3)) *
      (pow2 logQ3mq)) * (pow6 mU3))) - (((#41424 * (pow12 mQ3)) * (pow2 logQ3U3)) * (pow6 mU3))) + ((((#62496
      * lmQ3MR) * (pow12 mQ3)) * (pow2 logQ3U3)) * (pow6 mU3))) - ((((#11040 * logQ3mq) * (pow12 mQ3)) *
      (pow2 logQ3U3)) * (pow6 mU3))) - (((#39888 * (pow12 mQ3)) * (pow3 logQ3U3)) * (pow6 mU3))) + ((((#2880
      * (Li2 (#1 - (msq2 / mU32)))) * (pow6 mQ3)) * (pow6 msq)) * (pow6 mU3))) + (((((#4320 * (Li2 (#1 -
      (msq2 / mU32)))) * logQ3U3) * (pow6 mQ3)) * (pow6 msq)) * (pow6 mU3))) - (((((#2880 * logQ3mq) *
      logQ3U3) * (pow6 mQ3)) * (pow6 msq)) * (pow6 mU3))) + ((((#540 * (pow2 logQ3mq)) * (pow6 mQ3)) * (pow6
      msq)) * (pow6 mU3))) + (((((#2250 * logQ3U3) * (pow2 logQ3mq)) * (pow6 mQ3)) * (pow6 msq)) * (pow6
      mU3))) + ((((#1440 * (pow2 logQ3U3)) * (pow6 mQ3)) * (pow6 msq)) * (pow6 mU3))) - (((((#4320 * logQ3mq)
      * (pow2 logQ3U3)) * (pow6 mQ3)) * (pow6 msq)) * (pow6 mU3))) + ((((#2160 * (pow3 logQ3U3)) * (pow6
      mQ3)) * (pow6 msq)) * (pow6 mU3))) - ((((#14400 * (Li2 (#1 - (msq2 / mU32)))) * (pow4 mU3)) * (pow6
      msq)) * (pow8 mQ3))) - (((((#1440 * (Li2 (#1 - (msq2 / mU32)))) * logQ3U3) * (pow4 mU3)) * (pow6 msq))
      * (pow8 mQ3))) + (((((#14400 * logQ3mq) * logQ3U3) * (pow4 mU3)) * (pow6 msq)) * (pow8 mQ3))) -
      ((((#6750 * (pow2 logQ3mq)) * (pow4 mU3)) * (pow6 msq)) * (pow8 mQ3))) - (((((#855 * logQ3U3) * (pow2
      logQ3mq)) * (pow4 mU3)) * (pow6 msq)) * (pow8 mQ3))) - ((((#7200 * (pow2 logQ3U3)) * (pow4 mU3)) *
      (pow6 msq)) * (pow8 mQ3))) + (((((#1440 * logQ3mq) * (pow2 logQ3U3)) * (pow4 mU3)) * (pow6 msq)) *
      (pow8 mQ3))) - ((((#720 * (pow3 logQ3U3)) * (pow4 mU3)) * (pow6 msq)) * (pow8 mQ3))) + (((#17280 *
      (pow4 msq)) * (pow6 mU3)) * (pow8 mQ3))) + ((((#25920 * (Li2 (#1 - (msq2 / mU32)))) * (pow4 msq)) *
      (pow6 mU3)) * (pow8 mQ3))) - ((((#17280 * logQ3mq) * (pow4 msq)) * (pow6 mU3)) * (pow8 mQ3))) +
      ((((#20160 * logQ3U3) * (pow4 msq)) * (pow6 mU3)) * (pow8 mQ3))) - (((((#7200 * (Li2 (#1 - (msq2 /
      mU32)))) * logQ3U3) * (pow4 msq)) * (pow6 mU3)) * (pow8 mQ3))) - (((((#31680 * logQ3mq) * logQ3U3) *
      (pow4 msq)) * (pow6 mU3)) * (pow8 mQ3))) + ((((#12060 * (pow2 logQ3mq)) * (pow4 msq)) * (pow6 mU3)) *
      (pow8 mQ3))) - (((((#3510 * logQ3U3) * (pow2 logQ3mq)) * (pow4 msq)) * (pow6 mU3)) * (pow8 mQ3))) +
      ((((#14400 * (pow2 logQ3U3)) * (pow4 msq)) * (pow6 mU3)) * (pow8 mQ3))) + (((((#7200 * logQ3mq) * (pow2
      logQ3U3)) * (pow4 msq)) * (pow6 mU3)) * (pow8 mQ3))) - ((((#3600 * (pow3 logQ3U3)) * (pow4 msq)) *
      (pow6 mU3)) * (pow8 mQ3))) - ((((#20160 * (Li2 (#1 - (msq2 / mU32)))) * (pow4 msq)) * (pow6 mQ3)) *
      (pow8 mU3))) - ((((#5760 * logQ3U3) * (pow4 msq)) * (pow6 mQ3)) * (pow8 mU3))) - (((((#10080 * (Li2 (#1
      - (msq2 / mU32)))) * logQ3U3) * (pow4 msq)) * (pow6 mQ3)) * (pow8 mU3))) + (((((#23040 * logQ3mq) *
      logQ3U3) * (pow4 msq)) * (pow6 mQ3)) * (pow8 mU3))) - ((((#9180 * (pow2 logQ3mq)) * (pow4 msq)) * (pow6
      mQ3)) * (pow8 mU3))) - (((((#4950 * logQ3U3) * (pow2 logQ3mq)) * (pow4 msq)) * (pow6 mQ3)) * (pow8
      mU3))) - ((((#14400 * (pow2 logQ3U3)) * (pow4 msq)) * (pow6 mQ3)) * (pow8 mU3))) + (((((#10080 *
      logQ3mq) * (pow2 logQ3U3)) * (pow4 msq)) * (pow6 mQ3)) * (pow8 mU3))) - ((((#5040 * (pow3 logQ3U3)) *
      (pow4 msq)) * (pow6 mQ3)) * (pow8 mU3))) + ((((#2880 * (Li2 (#1 - (msq2 / mU32)))) * (pow4 mQ3)) *
      (pow6 msq)) * (pow8 mU3))) + (((((#1440 * (Li2 (#1 - (msq2 / mU32)))) * logQ3U3) * (pow4 mQ3)) * (pow6
      msq)) * (pow8 mU3))) - (((((#2880 * logQ3mq) * logQ3U3) * (pow4 mQ3)) * (pow6 msq)) * (pow8 mU3))) +
      ((((#2340 * (pow2 logQ3mq)) * (pow4 mQ3)) * (pow6 msq)) * (pow8 mU3))) + (((((#810 * logQ3U3) * (pow2
      logQ3mq)) * (pow4 mQ3)) * (pow6 msq)) * (pow8 mU3))) + ((((#1440 * (pow2 logQ3U3)) * (pow4 mQ3)) *
      (pow6 msq)) * (pow8 mU3))) - (((((#1440 * logQ3mq) * (pow2 logQ3U3)) * (pow4 mQ3)) * (pow6 msq)) *
      (pow8 mU3))) + ((((#720 * (pow3 logQ3U3)) * (pow4 mQ3)) * (pow6 msq)) * (pow8 mU3))) - (((#716896 *
      msq2) * (pow8 mQ3)) * (pow8 mU3))) - ((((#406144 * lmQ3MR) * msq2) * (pow8 mQ3)) * (pow8 mU3))) -
      ((((#126528 * msq2) * (Li2 (#1 - (mQ32 / mU32)))) * (pow8 mQ3)) * (pow8 mU3))) + (((((#53760 * lmQ3MR)
      * msq2) * (Li2 (#1 - (mQ32 / mU32)))) * (pow8 mQ3)) * (pow8 mU3))) + ((((#2880 * msq2) * (Li2 (#1 -
      (msq2 / mU32)))) * (pow8 mQ3)) * (pow8 mU3))) + ((((#176640 * msq2) * logQ3mq) * (pow8 mQ3)) * (pow8
      mU3))) - (((((#4800 * lmQ3MR) * msq2) * logQ3mq) * (pow8 mQ3)) * (pow8 mU3))) - (((((#9600 * msq2) *
      (Li2 (#1 - (mQ32 / mU32)))) * logQ3mq) * (pow8 mQ3)) * (pow8 mU3))) - ((((#385168 * msq2) * logQ3U3) *
      (pow8 mQ3)) * (pow8 mU3))) - (((((#44416 * lmQ3MR) * msq2) * logQ3U3) * (pow8 mQ3)) * (pow8 mU3))) -
      (((((#102816 * msq2) * (Li2 (#1 - (mQ32 / mU32)))) * logQ3U3) * (pow8 mQ3)) * (pow8 mU3))) +
      (((((#12960 * msq2) * (Li2 (#1 - (msq2 / mU32)))) * logQ3U3) * (pow8 mQ3)) * (pow8 mU3))) + (((((#21600
      * msq2) * logQ3mq) * logQ3U3) * (pow8 mQ3)) * (pow8 mU3))) + ((((((#7680 * lmQ3MR) * msq2) * logQ3mq) *
      logQ3U3) * (pow8 mQ3)) * (pow8 mU3))) + ((((#266880 * msq2) * (pow2 lmQ3MR)) * (pow8 mQ3)) * (pow8
      mU3))) - (((((#19008 * msq2) * logQ3U3) * (pow2 lmQ3MR)) * (pow8 mQ3)) * (pow8 mU3))) - ((((#3060 *
      msq2) * (pow2 logQ3mq)) * (pow8 mQ3)) * (pow8 mU3))) + (((((#6030 * msq2) * logQ3U3) * (pow2 logQ3mq))
      * (pow8 mQ3)) * (pow8 mU3))) - ((((#54768 * msq2) * (pow2 logQ3U3)) * (pow8 mQ3)) * (pow8 mU3))) +
      (((((#62112 * lmQ3MR) * msq2) * (pow2 logQ3U3)) * (pow8 mQ3)) * (pow8 mU3))) - (((((#12000 * msq2) *
      logQ3mq) * (pow2 logQ3U3)) * (pow8 mQ3)) * (pow8 mU3))) - ((((#16080 * msq2) * (pow3 logQ3U3)) * (pow8
      mQ3)) * (pow8 mU3))) - (((#23040 * (pow4 msq)) * (pow4 mU3)) * (power10 mQ3))) + ((((#8640 * (Li2 (#1 -
      (msq2 / mU32)))) * (pow4 msq)) * (pow4 mU3)) * (power10 mQ3))) + ((((#23040 * logQ3mq) * (pow4 msq)) *
      (pow4 mU3)) * (power10 mQ3))) - ((((#5760 * logQ3U3) * (pow4 msq)) * (pow4 mU3)) * (power10 mQ3))) +
      (((((#10080 * (Li2 (#1 - (msq2 / mU32)))) * logQ3U3) * (pow4 msq)) * (pow4 mU3)) * (power10 mQ3))) -
      (((((#11520 * logQ3mq) * logQ3U3) * (pow4 msq)) * (pow4 mU3)) * (power10 mQ3))) + ((((#4770 * (pow2
      logQ3mq)) * (pow4 msq)) * (pow4 mU3)) * (power10 mQ3))) + (((((#4905 * logQ3U3) * (pow2 logQ3mq)) *
      (pow4 msq)) * (pow4 mU3)) * (power10 mQ3))) + ((((#8640 * (pow2 logQ3U3)) * (pow4 msq)) * (pow4 mU3)) *
      (power10 mQ3))) - (((((#10080 * logQ3mq) * (pow2 logQ3U3)) * (pow4 msq)) * (pow4 mU3)) * (power10
      mQ3))) + ((((#5040 * (pow3 logQ3U3)) * (pow4 msq)) * (pow4 mU3)) * (power10 mQ3))) + ((((#8640 * mU32)
      * (Li2 (#1 - (msq2 / mU32)))) * (pow6 msq)) * (power10 mQ3))) - (((((#4320 * mU32) * (Li2 (#1 - (msq2 /
      mU32)))) * logQ3U3) * (pow6 msq)) * (power10 mQ3))) - (((((#8640 * mU32) * logQ3mq) * logQ3U3) * (pow6
      msq)) * (power10 mQ3))) + ((((#4230 * mU32) * (pow2 logQ3mq)) * (pow6 msq)) * (power10 mQ3))) -
      (((((#2115 * mU32) * logQ3U3) * (pow2 logQ3mq)) * (pow6 msq)) * (power10 mQ3))) + ((((#4320 * mU32) *
      (pow2 logQ3U3)) * (pow6 msq)) * (power10 mQ3))) + (((((#4320 * mU32) * logQ3mq) * (pow2 logQ3U3)) *
      (pow6 msq)) * (power10 mQ3))) - ((((#2160 * mU32) * (pow3 logQ3U3)) * (pow6 msq)) * (power10 mQ3))) +
      (((#902560 * msq2) * (pow6 mU3)) * (power10 mQ3))) + ((((#301504 * lmQ3MR) * msq2) * (pow6 mU3)) *
      (power10 mQ3))) + ((((#216384 * msq2) * (Li2 (#1 - (mQ32 / mU32)))) * (pow6 mU3)) * (power10 mQ3))) -
      (((((#53760 * lmQ3MR) * msq2) * (Li2 (#1 - (mQ32 / mU32)))) * (pow6 mU3)) * (power10 mQ3))) -
      ((((#31680 * msq2) * (Li2 (#1 - (msq2 / mU32)))) * (pow6 mU3)) * (power10 mQ3))) - ((((#156480 * msq2)
      * logQ3mq) * (pow6 mU3)) * (power10 mQ3))) + (((((#9600 * msq2) * (Li2 (#1 - (mQ32 / mU32)))) *
      logQ3mq) * (pow6 mU3)) * (power10 mQ3))) + ((((#264464 * msq2) * logQ3U3) * (pow6 mU3)) * (power10
      mQ3))) - (((((#137056 * lmQ3MR) * msq2) * logQ3U3) * (pow6 mU3)) * (power10 mQ3))) + (((((#89952 *
      msq2) * (Li2 (#1 - (mQ32 / mU32)))) * logQ3U3) * (pow6 mU3)) * (power10 mQ3))) - (((((#1440 * msq2) *
      (Li2 (#1 - (msq2 / mU32)))) * logQ3U3) * (pow6 mU3)) * (power10 mQ3))) + (((((#40800 * msq2) * logQ3mq)
      * logQ3U3) * (pow6 mU3)) * (power10 mQ3))) - ((((((#11520 * lmQ3MR) * msq2) * logQ3mq) * logQ3U3) *
      (pow6 mU3)) * (power10 mQ3))) - ((((#240000 * msq2) * (pow2 lmQ3MR)) * (pow6 mU3)) * (power10 mQ3))) +
      (((((#88512 * msq2) * logQ3U3) * (pow2 lmQ3MR)) * (pow6 mU3)) * (power10 mQ3))) - ((((#11340 * msq2) *
      (pow2 logQ3mq)) * (pow6 mU3)) * (power10 mQ3))) - (((((#1170 * msq2) * logQ3U3) * (pow2 logQ3mq)) *
      (pow6 mU3)) * (power10 mQ3))) + ((((#25584 * msq2) * (pow2 logQ3U3)) * (pow6 mU3)) * (power10 mQ3))) -
      (((((#62496 * lmQ3MR) * msq2) * (pow2 logQ3U3)) * (pow6 mU3)) * (power10 mQ3))) + (((((#8160 * msq2) *
      logQ3mq) * (pow2 logQ3U3)) * (pow6 mU3)) * (power10 mQ3))) + ((((#41328 * msq2) * (pow3 logQ3U3)) *
      (pow6 mU3)) * (power10 mQ3))) + ((#716896 * (pow8 mU3)) * (power10 mQ3))) + (((#406144 * lmQ3MR) *
      (pow8 mU3)) * (power10 mQ3))) + (((#126528 * (Li2 (#1 - (mQ32 / mU32)))) * (pow8 mU3)) * (power10
      mQ3))) - ((((#53760 * lmQ3MR) * (Li2 (#1 - (mQ32 / mU32)))) * (pow8 mU3)) * (power10 mQ3))) + (((#14400
      * (Li2 (#1 - (msq2 / mU32)))) * (pow8 mU3)) * (power10 mQ3))) - (((#157440 * logQ3mq) * (pow8 mU3)) *
      (power10 mQ3))) + ((((#4800 * lmQ3MR) * logQ3mq) * (pow8 mU3)) * (power10 mQ3))) + ((((#9600 * (Li2 (#1
      - (mQ32 / mU32)))) * logQ3mq) * (pow8 mU3)) * (power10 mQ3))) + (((#390928 * logQ3U3) * (pow8 mU3)) *
      (power10 mQ3))) + ((((#44416 * lmQ3MR) * logQ3U3) * (pow8 mU3)) * (power10 mQ3))) + ((((#102816 * (Li2
      (#1 - (mQ32 / mU32)))) * logQ3U3) * (pow8 mU3)) * (power10 mQ3))) - ((((#4320 * (Li2 (#1 - (msq2 /
      mU32)))) * logQ3U3) * (pow8 mU3)) * (power10 mQ3))) - ((((#39840 * logQ3mq) * logQ3U3) * (pow8 mU3)) *
      (power10 mQ3))) - (((((#7680 * lmQ3MR) * logQ3mq) * logQ3U3) * (pow8 mU3)) * (power10 mQ3))) -
      (((#266880 * (pow2 lmQ3MR)) * (pow8 mU3)) * (power10 mQ3))) + ((((#19008 * logQ3U3) * (pow2 lmQ3MR)) *
      (pow8 mU3)) * (power10 mQ3))) + (((#9900 * (pow2 logQ3mq)) * (pow8 mU3)) * (power10 mQ3))) - ((((#1890
      * logQ3U3) * (pow2 logQ3mq)) * (pow8 mU3)) * (power10 mQ3))) + (((#67728 * (pow2 logQ3U3)) * (pow8
      mU3)) * (power10 mQ3))) - ((((#62112 * lmQ3MR) * (pow2 logQ3U3)) * (pow8 mU3)) * (power10 mQ3))) +
      ((((#3360 * logQ3mq) * (pow2 logQ3U3)) * (pow8 mU3)) * (power10 mQ3))) + (((#20400 * (pow3 logQ3U3)) *
      (pow8 mU3)) * (power10 mQ3))) - (((((#90 * (mQ32 - mU32)) * mU32) * (Li2 (#1 - (mQ32 / msq2)))) *
      (((#(-2) * mQ32) + (#2 * mU32)) + ((mQ32 + mU32) * logQ3U3))) * (((((((#29 * (pow12 mQ3)) + ((pow6 mQ3)
      * (((((#(-109) * mU32) * (pow4 msq)) - ((#33 * msq2) * (pow4 mU3))) + (#47 * (pow6 msq))) - (#13 *
      (pow6 mU3))))) + ((pow6 msq) * (pow6 mU3))) + ((pow4 mQ3) * ((((#(-3) * (pow4 msq)) * (pow4 mU3)) +
      ((#19 * mU32) * (pow6 msq))) + ((#11 * msq2) * (pow6 mU3))))) + (mQ32 * (((#(-3) * (pow4 mU3)) * (pow6
      msq)) + ((pow4 msq) * (pow6 mU3))))) + (((((#209 * msq2) * mU32) - (#81 * (pow4 msq))) + (#39 * (pow4
      mU3))) * (pow8 mQ3))) + (((#5 * msq2) - (#119 * mU32)) * (power10 mQ3))))) - (((#2880 * (pow4 mQ3)) *
      (pow4 msq)) * (power10 mU3))) + ((((#2880 * logQ3mq) * (pow4 mQ3)) * (pow4 msq)) * (power10 mU3))) -
      ((((#4320 * logQ3U3) * (pow4 mQ3)) * (pow4 msq)) * (power10 mU3))) + (((((#1440 * logQ3mq) * logQ3U3) *
      (pow4 mQ3)) * (pow4 msq)) * (power10 mU3))) - ((((#450 * (pow2 logQ3mq)) * (pow4 mQ3)) * (pow4 msq)) *
      (power10 mU3))) - (((((#135 * logQ3U3) * (pow2 logQ3mq)) * (pow4 mQ3)) * (pow4 msq)) * (power10 mU3)))
      - ((((#1440 * (pow2 logQ3U3)) * (pow4 mQ3)) * (pow4 msq)) * (power10 mU3))) + (((#257936 * msq2) *
      (pow6 mQ3)) * (power10 mU3))) + ((((#249824 * lmQ3MR) * msq2) * (pow6 mQ3)) * (power10 mU3))) +
      ((((#20640 * msq2) * (Li2 (#1 - (mQ32 / mU32)))) * (pow6 mQ3)) * (power10 mU3))) - (((((#26880 *
      lmQ3MR) * msq2) * (Li2 (#1 - (mQ32 / mU32)))) * (pow6 mQ3)) * (power10 mU3))) + ((((#14400 * msq2) *
      (Li2 (#1 - (msq2 / mU32)))) * (pow6 mQ3)) * (power10 mU3))) - ((((#91680 * msq2) * logQ3mq) * (pow6
      mQ3)) * (power10 mU3))) + (((((#3840 * lmQ3MR) * msq2) * logQ3mq) * (pow6 mQ3)) * (power10 mU3))) +
      (((((#4800 * msq2) * (Li2 (#1 - (mQ32 / mU32)))) * logQ3mq) * (pow6 mQ3)) * (power10 mU3))) +
      ((((#152712 * msq2) * logQ3U3) * (pow6 mQ3)) * (power10 mU3))) + (((((#151824 * lmQ3MR) * msq2) *
      logQ3U3) * (pow6 mQ3)) * (power10 mU3))) + (((((#36528 * msq2) * (Li2 (#1 - (mQ32 / mU32)))) * logQ3U3)
      * (pow6 mQ3)) * (power10 mU3))) + (((((#4320 * msq2) * (Li2 (#1 - (msq2 / mU32)))) * logQ3U3) * (pow6
      mQ3)) * (power10 mU3))) - (((((#45360 * msq2) * logQ3mq) * logQ3U3) * (pow6 mQ3)) * (power10 mU3))) -
      ((((((#1920 * lmQ3MR) * msq2) * logQ3mq) * logQ3U3) * (pow6 mQ3)) * (power10 mU3))) - ((((#141504 *
      msq2) * (pow2 lmQ3MR)) * (pow6 mQ3)) * (power10 mU3))) - (((((#25248 * msq2) * logQ3U3) * (pow2
      lmQ3MR)) * (pow6 mQ3)) * (power10 mU3))) + ((((#9450 * msq2) * (pow2 logQ3mq)) * (pow6 mQ3)) * (power10
      mU3))) + (((((#2835 * msq2) * logQ3U3) * (pow2 logQ3mq)) * (pow6 mQ3)) * (power10 mU3))) + ((((#20904 *
      msq2) * (pow2 logQ3U3)) * (pow6 mQ3)) * (power10 mU3))) + (((((#2016 * lmQ3MR) * msq2) * (pow2
      logQ3U3)) * (pow6 mQ3)) * (power10 mU3))) - (((((#4320 * msq2) * logQ3mq) * (pow2 logQ3U3)) * (pow6
      mQ3)) * (power10 mU3))) - ((((#7080 * msq2) * (pow3 logQ3U3)) * (pow6 mQ3)) * (power10 mU3))) -
      ((((#450 * mQ32) * (pow2 logQ3mq)) * (pow6 msq)) * (power10 mU3))) - (((((#135 * mQ32) * logQ3U3) *
      (pow2 logQ3mq)) * (pow6 msq)) * (power10 mU3))) - ((#255056 * (pow8 mQ3)) * (power10 mU3))) -
      (((#249824 * lmQ3MR) * (pow8 mQ3)) * (power10 mU3))) - (((#20640 * (Li2 (#1 - (mQ32 / mU32)))) * (pow8
      mQ3)) * (power10 mU3))) + ((((#26880 * lmQ3MR) * (Li2 (#1 - (mQ32 / mU32)))) * (pow8 mQ3)) * (power10
      mU3))) - (((#14400 * (Li2 (#1 - (msq2 / mU32)))) * (pow8 mQ3)) * (power10 mU3))) + (((#79200 * logQ3mq)
      * (pow8 mQ3)) * (power10 mU3))) - ((((#3840 * lmQ3MR) * logQ3mq) * (pow8 mQ3)) * (power10 mU3))) -
      ((((#4800 * (Li2 (#1 - (mQ32 / mU32)))) * logQ3mq) * (pow8 mQ3)) * (power10 mU3))) - (((#148392 *
      logQ3U3) * (pow8 mQ3)) * (power10 mU3))) - ((((#151824 * lmQ3MR) * logQ3U3) * (pow8 mQ3)) * (power10
      mU3))) - ((((#36528 * (Li2 (#1 - (mQ32 / mU32)))) * logQ3U3) * (pow8 mQ3)) * (power10 mU3))) -
      ((((#4320 * (Li2 (#1 - (msq2 / mU32)))) * logQ3U3) * (pow8 mQ3)) * (power10 mU3))) + ((((#41040 *
      logQ3mq) * logQ3U3) * (pow8 mQ3)) * (power10 mU3))) + (((((#1920 * lmQ3MR) * logQ3mq) * logQ3U3) *
      (pow8 mQ3)) * (power10 mU3))) + (((#141504 * (pow2 lmQ3MR)) * (pow8 mQ3)) * (power10 mU3))) +
      ((((#25248 * logQ3U3) * (pow2 lmQ3MR)) * (pow8 mQ3)) * (power10 mU3))) - (((#8550 * (pow2 logQ3mq)) *
      (pow8 mQ3)) * (power10 mU3))) - ((((#2565 * logQ3U3) * (pow2 logQ3mq)) * (pow8 mQ3)) * (power10 mU3)))
      - (((#19464 * (pow2 logQ3U3)) * (pow8 mQ3)) * (power10 mU3))) - ((((#2016 * lmQ3MR) * (pow2 logQ3U3)) *
      (pow8 mQ3)) * (power10 mU3))) + ((((#4320 * logQ3mq) * (pow2 logQ3U3)) * (pow8 mQ3)) * (power10 mU3)))
      + (((#7080 * (pow3 logQ3U3)) * (pow8 mQ3)) * (power10 mU3)))) / ((((#18 * (mQ32 - msq2)) * mU32) *
      (pow4 mQ3)) * (pow7 (mQ32 - mU32)))).
Lemma xtt_QM_poly (Li2 : R -> R) (mQ32 mU32 mQ3 mU3 msq2 msq Xt4 Xt5 Xt6 lmQ3MR : R) : xtt_QM Li2 mQ32 mU32 mQ3 mU3 msq2 msq Xt4 Xt5 Xt6 lmQ3MR = (xtt_QM_6 Li2 mQ32 mU32 mQ3 mU3 msq2 msq lmQ3MR * Xt6 + xtt_QM_5 Li2 mQ32 mU32 mQ3 mU3 msq2 msq lmQ3MR * Xt5 + xtt_QM_4 Li2 mQ32 mU32 mQ3 mU3 msq2 msq lmQ3MR * Xt4)%R.
Proof. unfold xtt_QM, xtt_QM_6, xtt_QM_5, xtt_QM_4.  unR. unfold Rdiv. first [ring|unfold pow5, pow4, pow3, pow2; unR; ring]. Qed.

Definition xtt_UM_6 (Li2 : R -> R) (mQ32 mU32 mQ3 mU3 msq2 msq lmQ3MR : R) : R :=
    let logQ3U3 := nlog (mQ32 / mU32) in
    let logU3Q3 := - logQ3U3 in
    let logQ3mq := nlog (mQ32 / msq2) in
    let logU3mq := nlog (mU32 / msq2) in
    ((((#1280 * mU32) * #1) * (((#(-2) * mQ32) + (#2 * mU32)) + ((mQ32 + mU32) * logQ3U3))) * (pow2 (((-
      mQ32) + mU32) + (mQ32 * logQ3U3)))) / (#3 * (pow7 (mQ32 - mU32))).
Definition xtt_UM_5 (Li2 : R -> R) (mQ32 mU32 mQ3 mU3 msq2 msq lmQ3MR : R) : R :=
    let logQ3U3 := nlog (mQ32 / mU32) in
    let logU3Q3 := - logQ3U3 in
    let logQ3mq := nlog (mQ32 / msq2) in
    let logU3mq := nlog (mU32 / msq2) in
    ((#2 * #1) *
      (((((((((((((((((((((((((((((((((((((((((((((((((((((((((((((((((((((((((((((((((((((((((((((((((((((((((((((((((((((((((((((((((((((((((((((((((((((((((((((((((((((((((((((((((((((((((((((((((((((((((((((((((((((((((((((((((((((((((((((#88
      * mU32) * (Li2 (#1 - (mU32 / mQ32)))) * (pow12 mQ3)) + (((#48 * mU32) * logQ3U3) * (pow12 mQ3))) -
      ((((#32 * mU32) * (Li2 (#1 - (mU32 / mQ32)))) * logQ3U3) * (pow12 mQ3))) + (((#48 * mU32) * logU3Q3) *
      (pow12 mQ3))) - ((((#24 * mU32) * logQ3U3) * logU3Q3) * (pow12 mQ3))) + ((#6848 * mQ32) * (pow12 mU3)))
      - (((#4416 * lmQ3MR) * mQ32) * (pow12 mU3))) - (((#120 * mQ32) * (Li2 (#1 - (msq2 / mU32)))) * (pow12
      mU3))) + (((#612 * mQ32) * (Li2 (#1 - (mU32 / mQ32)))) * (pow12 mU3))) - (((#120 * mQ32) * (Li2 (#1 -
      (mU32 / msq2)))) * (pow12 mU3))) - (((#160 * mQ32) * logQ3mq) * (pow12 mU3))) + (((#11408 * mQ32) *
      logQ3U3) * (pow12 mU3))) - ((((#5536 * lmQ3MR) * mQ32) * logQ3U3) * (pow12 mU3))) - ((((#60 * mQ32) *
      (Li2 (#1 - (msq2 / mU32)))) * logQ3U3) * (pow12 mU3))) + ((((#562 * mQ32) * (Li2 (#1 - (mU32 / mQ32))))
      * logQ3U3) * (pow12 mU3))) - ((((#60 * mQ32) * (Li2 (#1 - (mU32 / msq2)))) * logQ3U3) * (pow12 mU3))) +
      ((((#40 * mQ32) * logQ3mq) * logQ3U3) * (pow12 mU3))) + (((#112 * mQ32) * logU3Q3) * (pow12 mU3))) +
      ((((#56 * mQ32) * logQ3U3) * logU3Q3) * (pow12 mU3))) + (((#480 * mQ32) * logU3mq) * (pow12 mU3))) +
      ((((#240 * mQ32) * logQ3U3) * logU3mq) * (pow12 mU3))) - ((#12 * (Li2 (#1 - (mU32 / mQ32)))) * (pow14
      mQ3))) + (((#6 * (Li2 (#1 - (mU32 / mQ32)))) * logQ3U3) * (pow14 mQ3))) + (#512 * (pow14 mU3))) -
      ((#512 * lmQ3MR) * (pow14 mU3))) + ((#512 * logQ3U3) * (pow14 mU3))) - (((#60 * mQ32) * (pow12 mU3)) *
      (pow2 logQ3mq))) - ((((#30 * mQ32) * logQ3U3) * (pow12 mU3)) * (pow2 logQ3mq))) + (((#20 * mU32) *
      (pow12 mQ3)) * (pow2 logQ3U3))) + (((#6158 * mQ32) * (pow12 mU3)) * (pow2 logQ3U3))) - ((((#512 *
      lmQ3MR) * mQ32) * (pow12 mU3)) * (pow2 logQ3U3))) + ((((#60 * mQ32) * logQ3mq) * (pow12 mU3)) * (pow2
      logQ3U3))) - ((#6 * (pow14 mQ3)) * (pow2 logQ3U3))) - (((#16 * mU32) * (pow12 mQ3)) * (pow3 logQ3U3)))
      + (((#763 * mQ32) * (pow12 mU3)) * (pow3 logQ3U3))) + ((#3 * (pow14 mQ3)) * (pow3 logQ3U3))) + (((((#2
      * mQ32) * (Li2 (#1 - (mQ32 / mU32)))) * (((#(-2) * mQ32) + (#2 * mU32)) + ((mQ32 + mU32) * logQ3U3))) *
      (pow3 (mQ32 - mU32))) * ((((#(-10) * mQ32) * mU32) + (#3 * (pow4 mQ3))) - (#57 * (pow4 mU3))))) +
      (((((#960 * (mQ32 - mU32)) * (Li2 (#1 - (msq2 / mQ32)))) * (((#(-2) * mQ32) + (#2 * mU32)) + ((mQ32 +
      mU32) * logQ3U3))) * (pow2 ((- (mQ3 * msq2)) + (pow3 mQ3)))) * (pow4 mU3))) - ((((#720 * (Li2 (#1 -
      (msq2 / mU32)))) * (pow4 msq)) * (pow4 mU3)) * (pow6 mQ3))) - ((((#2640 * (Li2 (#1 - (mU32 / msq2)))) *
      (pow4 msq)) * (pow4 mU3)) * (pow6 mQ3))) + (((((#960 * (Li2 (#1 - (mU32 / msq2)))) * logQ3U3) * (pow4
      msq)) * (pow4 mU3)) * (pow6 mQ3))) + (((((#720 * logQ3mq) * logQ3U3) * (pow4 msq)) * (pow4 mU3)) *
      (pow6 mQ3))) - ((((#1320 * (pow2 logQ3mq)) * (pow4 msq)) * (pow4 mU3)) * (pow6 mQ3))) + (((((#480 *
      logQ3U3) * (pow2 logQ3mq)) * (pow4 msq)) * (pow4 mU3)) * (pow6 mQ3))) - ((((#360 * (pow2 logQ3U3)) *
      (pow4 msq)) * (pow4 mU3)) * (pow6 mQ3))) + ((((#480 * (Li2 (#1 - (msq2 / mU32)))) * (pow4 mQ3)) * (pow4
      msq)) * (pow6 mU3))) + ((((#4320 * (Li2 (#1 - (mU32 / msq2)))) * (pow4 mQ3)) * (pow4 msq)) * (pow6
      mU3))) + (((((#120 * (Li2 (#1 - (msq2 / mU32)))) * logQ3U3) * (pow4 mQ3)) * (pow4 msq)) * (pow6 mU3)))
      + (((((#120 * (Li2 (#1 - (mU32 / msq2)))) * logQ3U3) * (pow4 mQ3)) * (pow4 msq)) * (pow6 mU3))) -
      (((((#480 * logQ3mq) * logQ3U3) * (pow4 mQ3)) * (pow4 msq)) * (pow6 mU3))) + ((((#2160 * (pow2
      logQ3mq)) * (pow4 mQ3)) * (pow4 msq)) * (pow6 mU3))) + (((((#60 * logQ3U3) * (pow2 logQ3mq)) * (pow4
      mQ3)) * (pow4 msq)) * (pow6 mU3))) + ((((#240 * (pow2 logQ3U3)) * (pow4 mQ3)) * (pow4 msq)) * (pow6
      mU3))) - (((((#120 * logQ3mq) * (pow2 logQ3U3)) * (pow4 mQ3)) * (pow4 msq)) * (pow6 mU3))) + ((((#60 *
      (pow3 logQ3U3)) * (pow4 mQ3)) * (pow4 msq)) * (pow6 mU3))) - (((#5760 * msq2) * (pow6 mQ3)) * (pow6
      mU3))) + ((((#1440 * msq2) * (Li2 (#1 - (msq2 / mU32)))) * (pow6 mQ3)) * (pow6 mU3))) - ((((#6240 *
      msq2) * (Li2 (#1 - (mU32 / msq2)))) * (pow6 mQ3)) * (pow6 mU3))) + ((((#2880 * msq2) * logQ3mq) * (pow6
      mQ3)) * (pow6 mU3))) + ((((#1920 * msq2) * logQ3U3) * (pow6 mQ3)) * (pow6 mU3))) - (((((#2400 * msq2) *
      logQ3mq) * logQ3U3) * (pow6 mQ3)) * (pow6 mU3))) + ((((#2880 * msq2) * logU3mq) * (pow6 mQ3)) * (pow6
      mU3))) - ((((#3120 * msq2) * (pow2 logQ3mq)) * (pow6 mQ3)) * (pow6 mU3))) + ((((#1680 * msq2) * (pow2
      logQ3U3)) * (pow6 mQ3)) * (pow6 mU3))) + ((((#480 * mU32) * (Li2 (#1 - (msq2 / mU32)))) * (pow4 msq)) *
      (pow8 mQ3))) + ((((#480 * mU32) * (Li2 (#1 - (mU32 / msq2)))) * (pow4 msq)) * (pow8 mQ3))) - (((((#120
      * mU32) * (Li2 (#1 - (msq2 / mU32)))) * logQ3U3) * (pow4 msq)) * (pow8 mQ3))) - (((((#120 * mU32) *
      (Li2 (#1 - (mU32 / msq2)))) * logQ3U3) * (pow4 msq)) * (pow8 mQ3))) - (((((#480 * mU32) * logQ3mq) *
      logQ3U3) * (pow4 msq)) * (pow8 mQ3))) + ((((#240 * mU32) * (pow2 logQ3mq)) * (pow4 msq)) * (pow8 mQ3)))
      - (((((#60 * mU32) * logQ3U3) * (pow2 logQ3mq)) * (pow4 msq)) * (pow8 mQ3))) + ((((#240 * mU32) * (pow2
      logQ3U3)) * (pow4 msq)) * (pow8 mQ3))) + (((((#120 * mU32) * logQ3mq) * (pow2 logQ3U3)) * (pow4 msq)) *
      (pow8 mQ3))) - ((((#60 * mU32) * (pow3 logQ3U3)) * (pow4 msq)) * (pow8 mQ3))) + (((#1920 * msq2) *
      (pow4 mU3)) * (pow8 mQ3))) - ((((#960 * msq2) * (Li2 (#1 - (msq2 / mU32)))) * (pow4 mU3)) * (pow8
      mQ3))) + ((((#2880 * msq2) * (Li2 (#1 - (mU32 / msq2)))) * (pow4 mU3)) * (pow8 mQ3))) - ((((#2880 *
      msq2) * logQ3U3) * (pow4 mU3)) * (pow8 mQ3))) + (((((#240 * msq2) * (Li2 (#1 - (msq2 / mU32)))) *
      logQ3U3) * (pow4 mU3)) * (pow8 mQ3))) - (((((#1680 * msq2) * (Li2 (#1 - (mU32 / msq2)))) * logQ3U3) *
      (pow4 mU3)) * (pow8 mQ3))) + (((((#1440 * msq2) * logQ3mq) * logQ3U3) * (pow4 mU3)) * (pow8 mQ3))) -
      ((((#1920 * msq2) * logU3mq) * (pow4 mU3)) * (pow8 mQ3))) + (((((#480 * msq2) * logQ3U3) * logU3mq) *
      (pow4 mU3)) * (pow8 mQ3))) + ((((#1440 * msq2) * (pow2 logQ3mq)) * (pow4 mU3)) * (pow8 mQ3))) -
      (((((#840 * msq2) * logQ3U3) * (pow2 logQ3mq)) * (pow4 mU3)) * (pow8 mQ3))) - (((((#240 * msq2) *
      logQ3mq) * (pow2 logQ3U3)) * (pow4 mU3)) * (pow8 mQ3))) + ((((#120 * msq2) * (pow3 logQ3U3)) * (pow4
      mU3)) * (pow8 mQ3))) - ((#32000 * (pow6 mU3)) * (pow8 mQ3))) + (((#25728 * lmQ3MR) * (pow6 mU3)) *
      (pow8 mQ3))) + (((#480 * (Li2 (#1 - (msq2 / mU32)))) * (pow6 mU3)) * (pow8 mQ3))) - (((#2160 * (Li2 (#1
      - (mU32 / mQ32)))) * (pow6 mU3)) * (pow8 mQ3))) + (((#4320 * (Li2 (#1 - (mU32 / msq2)))) * (pow6 mU3))
      * (pow8 mQ3))) + (((#640 * logQ3mq) * (pow6 mU3)) * (pow8 mQ3))) + (((#8672 * logQ3U3) * (pow6 mU3)) *
      (pow8 mQ3))) - ((((#19840 * lmQ3MR) * logQ3U3) * (pow6 mU3)) * (pow8 mQ3))) - ((((#120 * (Li2 (#1 -
      (msq2 / mU32)))) * logQ3U3) * (pow6 mU3)) * (pow8 mQ3))) - ((((#400 * (Li2 (#1 - (mU32 / mQ32)))) *
      logQ3U3) * (pow6 mU3)) * (pow8 mQ3))) - ((((#120 * (Li2 (#1 - (mU32 / msq2)))) * logQ3U3) * (pow6 mU3))
      * (pow8 mQ3))) - ((((#3520 * logQ3mq) * logQ3U3) * (pow6 mU3)) * (pow8 mQ3))) - (((#160 * logU3Q3) *
      (pow6 mU3)) * (pow8 mQ3))) + ((((#112 * logQ3U3) * logU3Q3) * (pow6 mU3)) * (pow8 mQ3))) - (((#1920 *
      logU3mq) * (pow6 mU3)) * (pow8 mQ3))) + ((((#480 * logQ3U3) * logU3mq) * (pow6 mU3)) * (pow8 mQ3))) +
      (((#2160 * (pow2 logQ3mq)) * (pow6 mU3)) * (pow8 mQ3))) - ((((#60 * logQ3U3) * (pow2 logQ3mq)) * (pow6
      mU3)) * (pow8 mQ3))) + (((#9256 * (pow2 logQ3U3)) * (pow6 mU3)) * (pow8 mQ3))) + ((((#896 * lmQ3MR) *
      (pow2 logQ3U3)) * (pow6 mU3)) * (pow8 mQ3))) - ((((#40 * logQ3mq) * (pow2 logQ3U3)) * (pow6 mU3)) *
      (pow8 mQ3))) - (((#212 * (pow3 logQ3U3)) * (pow6 mU3)) * (pow8 mQ3))) + (((#5760 * msq2) * (pow4 mQ3))
      * (pow8 mU3))) - ((((#960 * msq2) * (Li2 (#1 - (msq2 / mU32)))) * (pow4 mQ3)) * (pow8 mU3))) +
      ((((#2880 * msq2) * (Li2 (#1 - (mU32 / msq2)))) * (pow4 mQ3)) * (pow8 mU3))) - ((((#3840 * msq2) *
      logQ3mq) * (pow4 mQ3)) * (pow8 mU3))) + ((((#2880 * msq2) * logQ3U3) * (pow4 mQ3)) * (pow8 mU3))) -
      (((((#240 * msq2) * (Li2 (#1 - (msq2 / mU32)))) * logQ3U3) * (pow4 mQ3)) * (pow8 mU3))) + (((((#1680 *
      msq2) * (Li2 (#1 - (mU32 / msq2)))) * logQ3U3) * (pow4 mQ3)) * (pow8 mU3))) + (((((#480 * msq2) *
      logQ3mq) * logQ3U3) * (pow4 mQ3)) * (pow8 mU3))) - ((((#1920 * msq2) * logU3mq) * (pow4 mQ3)) * (pow8
      mU3))) - (((((#480 * msq2) * logQ3U3) * logU3mq) * (pow4 mQ3)) * (pow8 mU3))) + ((((#1440 * msq2) *
      (pow2 logQ3mq)) * (pow4 mQ3)) * (pow8 mU3))) + (((((#840 * msq2) * logQ3U3) * (pow2 logQ3mq)) * (pow4
      mQ3)) * (pow8 mU3))) - ((((#960 * msq2) * (pow2 logQ3U3)) * (pow4 mQ3)) * (pow8 mU3))) + (((((#240 *
      msq2) * logQ3mq) * (pow2 logQ3U3)) * (pow4 mQ3)) * (pow8 mU3))) - ((((#120 * msq2) * (pow3 logQ3U3)) *
      (pow4 mQ3)) * (pow8 mU3))) - ((((#120 * mQ32) * (Li2 (#1 - (msq2 / mU32)))) * (pow4 msq)) * (pow8
      mU3))) - ((((#2040 * mQ32) * (Li2 (#1 - (mU32 / msq2)))) * (pow4 msq)) * (pow8 mU3))) - (((((#60 *
      mQ32) * (Li2 (#1 - (msq2 / mU32)))) * logQ3U3) * (pow4 msq)) * (pow8 mU3))) - (((((#1020 * mQ32) * (Li2
      (#1 - (mU32 / msq2)))) * logQ3U3) * (pow4 msq)) * (pow8 mU3))) + (((((#120 * mQ32) * logQ3mq) *
      logQ3U3) * (pow4 msq)) * (pow8 mU3))) - ((((#1020 * mQ32) * (pow2 logQ3mq)) * (pow4 msq)) * (pow8
      mU3))) - (((((#510 * mQ32) * logQ3U3) * (pow2 logQ3mq)) * (pow4 msq)) * (pow8 mU3))) - ((((#60 * mQ32)
      * (pow2 logQ3U3)) * (pow4 msq)) * (pow8 mU3))) + (((((#60 * mQ32) * logQ3mq) * (pow2 logQ3U3)) * (pow4
      msq)) * (pow8 mU3))) - ((((#30 * mQ32) * (pow3 logQ3U3)) * (pow4 msq)) * (pow8 mU3))) + ((#48256 *
      (pow6 mQ3)) * (pow8 mU3))) - (((#37120 * lmQ3MR) * (pow6 mQ3)) * (pow8 mU3))) - (((#720 * (Li2 (#1 -
      (msq2 / mU32)))) * (pow6 mQ3)) * (pow8 mU3))) + (((#3500 * (Li2 (#1 - (mU32 / mQ32)))) * (pow6 mQ3)) *
      (pow8 mU3))) - (((#2640 * (Li2 (#1 - (mU32 / msq2)))) * (pow6 mQ3)) * (pow8 mU3))) - (((#960 * logQ3mq)
      * (pow6 mQ3)) * (pow8 mU3))) + (((#14240 * logQ3U3) * (pow6 mQ3)) * (pow8 mU3))) + ((((#8512 * lmQ3MR)
      * logQ3U3) * (pow6 mQ3)) * (pow8 mU3))) + ((((#1490 * (Li2 (#1 - (mU32 / mQ32)))) * logQ3U3) * (pow6
      mQ3)) * (pow8 mU3))) - ((((#960 * (Li2 (#1 - (mU32 / msq2)))) * logQ3U3) * (pow6 mQ3)) * (pow8 mU3))) +
      ((((#1680 * logQ3mq) * logQ3U3) * (pow6 mQ3)) * (pow8 mU3))) + (((#480 * logU3Q3) * (pow6 mQ3)) * (pow8
      mU3))) - ((((#48 * logQ3U3) * logU3Q3) * (pow6 mQ3)) * (pow8 mU3))) + (((#2880 * logU3mq) * (pow6 mQ3))
      * (pow8 mU3))) - (((#1320 * (pow2 logQ3mq)) * (pow6 mQ3)) * (pow8 mU3))) - ((((#480 * logQ3U3) * (pow2
      logQ3mq)) * (pow6 mQ3)) * (pow8 mU3))) - (((#9730 * (pow2 logQ3U3)) * (pow6 mQ3)) * (pow8 mU3))) +
      ((((#5056 * lmQ3MR) * (pow2 logQ3U3)) * (pow6 mQ3)) * (pow8 mU3))) + ((((#800 * logQ3mq) * (pow2
      logQ3U3)) * (pow6 mQ3)) * (pow8 mU3))) - (((#2695 * (pow3 logQ3U3)) * (pow6 mQ3)) * (pow8 mU3))) +
      ((((#240 * msq2) * mU32) * (Li2 (#1 - (msq2 / mU32)))) * (power10 mQ3))) + ((((#240 * msq2) * mU32) *
      (Li2 (#1 - (mU32 / msq2)))) * (power10 mQ3))) - ((((#480 * msq2) * mU32) * logQ3mq) * (power10 mQ3))) +
      ((((#480 * msq2) * mU32) * logQ3U3) * (power10 mQ3))) - (((((#120 * msq2) * mU32) * (Li2 (#1 - (msq2 /
      mU32)))) * logQ3U3) * (power10 mQ3))) - (((((#120 * msq2) * mU32) * (Li2 (#1 - (mU32 / msq2)))) *
      logQ3U3) * (power10 mQ3))) + ((((#480 * msq2) * mU32) * logU3mq) * (power10 mQ3))) - (((((#240 * msq2)
      * mU32) * logQ3U3) * logU3mq) * (power10 mQ3))) + ((((#120 * msq2) * mU32) * (pow2 logQ3mq)) * (power10
      mQ3))) - (((((#60 * msq2) * mU32) * logQ3U3) * (pow2 logQ3mq)) * (power10 mQ3))) - ((((#120 * msq2) *
      mU32) * (pow2 logQ3U3)) * (power10 mQ3))) + (((((#120 * msq2) * mU32) * logQ3mq) * (pow2 logQ3U3)) *
      (power10 mQ3))) - ((((#60 * msq2) * mU32) * (pow3 logQ3U3)) * (power10 mQ3))) - (((#120 * (Li2 (#1 -
      (msq2 / mU32)))) * (pow4 msq)) * (power10 mQ3))) - (((#120 * (Li2 (#1 - (mU32 / msq2)))) * (pow4 msq))
      * (power10 mQ3))) + ((((#60 * (Li2 (#1 - (msq2 / mU32)))) * logQ3U3) * (pow4 msq)) * (power10 mQ3))) +
      ((((#60 * (Li2 (#1 - (mU32 / msq2)))) * logQ3U3) * (pow4 msq)) * (power10 mQ3))) + ((((#120 * logQ3mq)
      * logQ3U3) * (pow4 msq)) * (power10 mQ3))) - (((#60 * (pow2 logQ3mq)) * (pow4 msq)) * (power10 mQ3))) +
      ((((#30 * logQ3U3) * (pow2 logQ3mq)) * (pow4 msq)) * (power10 mQ3))) - (((#60 * (pow2 logQ3U3)) * (pow4
      msq)) * (power10 mQ3))) - ((((#60 * logQ3mq) * (pow2 logQ3U3)) * (pow4 msq)) * (power10 mQ3))) + (((#30
      * (pow3 logQ3U3)) * (pow4 msq)) * (power10 mQ3))) + ((#7872 * (pow4 mU3)) * (power10 mQ3))) - (((#6592
      * lmQ3MR) * (pow4 mU3)) * (power10 mQ3))) - (((#120 * (Li2 (#1 - (msq2 / mU32)))) * (pow4 mU3)) *
      (power10 mQ3))) + (((#380 * (Li2 (#1 - (mU32 / mQ32)))) * (pow4 mU3)) * (power10 mQ3))) - (((#2040 *
      (Li2 (#1 - (mU32 / msq2)))) * (pow4 mU3)) * (power10 mQ3))) - (((#160 * logQ3mq) * (pow4 mU3)) *
      (power10 mQ3))) - (((#6448 * logQ3U3) * (pow4 mU3)) * (power10 mQ3))) + ((((#8544 * lmQ3MR) * logQ3U3)
      * (pow4 mU3)) * (power10 mQ3))) + ((((#60 * (Li2 (#1 - (msq2 / mU32)))) * logQ3U3) * (pow4 mU3)) *
      (power10 mQ3))) - ((((#10 * (Li2 (#1 - (mU32 / mQ32)))) * logQ3U3) * (pow4 mU3)) * (power10 mQ3))) +
      ((((#1020 * (Li2 (#1 - (mU32 / msq2)))) * logQ3U3) * (pow4 mU3)) * (power10 mQ3))) + ((((#1800 *
      logQ3mq) * logQ3U3) * (pow4 mU3)) * (power10 mQ3))) - (((#80 * logU3Q3) * (pow4 mU3)) * (power10 mQ3)))
      - ((((#8 * logQ3U3) * logU3Q3) * (pow4 mU3)) * (power10 mQ3))) + (((#480 * logU3mq) * (pow4 mU3)) *
      (power10 mQ3))) - ((((#240 * logQ3U3) * logU3mq) * (pow4 mU3)) * (power10 mQ3))) - (((#1020 * (pow2
      logQ3mq)) * (pow4 mU3)) * (power10 mQ3))) + ((((#510 * logQ3U3) * (pow2 logQ3mq)) * (pow4 mU3)) *
      (power10 mQ3))) - (((#1574 * (pow2 logQ3U3)) * (pow4 mU3)) * (power10 mQ3))) - ((((#2496 * lmQ3MR) *
      (pow2 logQ3U3)) * (pow4 mU3)) * (power10 mQ3))) - ((((#860 * logQ3mq) * (pow2 logQ3U3)) * (pow4 mU3)) *
      (power10 mQ3))) + (((#1161 * (pow3 logQ3U3)) * (pow4 mU3)) * (power10 mQ3))) - (((#1920 * mQ32) * msq2)
      * (power10 mU3))) + ((((#240 * mQ32) * msq2) * (Li2 (#1 - (msq2 / mU32)))) * (power10 mU3))) + ((((#240
      * mQ32) * msq2) * (Li2 (#1 - (mU32 / msq2)))) * (power10 mU3))) + ((((#1440 * mQ32) * msq2) * logQ3mq)
      * (power10 mU3))) - ((((#2400 * mQ32) * msq2) * logQ3U3) * (power10 mU3))) + (((((#120 * mQ32) * msq2)
      * (Li2 (#1 - (msq2 / mU32)))) * logQ3U3) * (power10 mU3))) + (((((#120 * mQ32) * msq2) * (Li2 (#1 -
      (mU32 / msq2)))) * logQ3U3) * (power10 mU3))) + (((((#480 * mQ32) * msq2) * logQ3mq) * logQ3U3) *
      (power10 mU3))) + ((((#480 * mQ32) * msq2) * logU3mq) * (power10 mU3))) + (((((#240 * mQ32) * msq2) *
      logQ3U3) * logU3mq) * (power10 mU3))) + ((((#120 * mQ32) * msq2) * (pow2 logQ3mq)) * (power10 mU3))) +
      (((((#60 * mQ32) * msq2) * logQ3U3) * (pow2 logQ3mq)) * (power10 mU3))) - ((((#600 * mQ32) * msq2) *
      (pow2 logQ3U3)) * (power10 mU3))) - (((((#120 * mQ32) * msq2) * logQ3mq) * (pow2 logQ3U3)) * (power10
      mU3))) + ((((#60 * mQ32) * msq2) * (pow3 logQ3U3)) * (power10 mU3))) - ((#31488 * (pow4 mQ3)) *
      (power10 mU3))) + (((#22912 * lmQ3MR) * (pow4 mQ3)) * (power10 mU3))) + (((#480 * (Li2 (#1 - (msq2 /
      mU32)))) * (pow4 mQ3)) * (power10 mU3))) - (((#2408 * (Li2 (#1 - (mU32 / mQ32)))) * (pow4 mQ3)) *
      (power10 mU3))) + (((#480 * (Li2 (#1 - (mU32 / msq2)))) * (pow4 mQ3)) * (power10 mU3))) + (((#640 *
      logQ3mq) * (pow4 mQ3)) * (power10 mU3))) - (((#28432 * logQ3U3) * (pow4 mQ3)) * (power10 mU3))) +
      ((((#8320 * lmQ3MR) * logQ3U3) * (pow4 mQ3)) * (power10 mU3))) + ((((#120 * (Li2 (#1 - (msq2 / mU32))))
      * logQ3U3) * (pow4 mQ3)) * (power10 mU3))) - ((((#1616 * (Li2 (#1 - (mU32 / mQ32)))) * logQ3U3) * (pow4
      mQ3)) * (power10 mU3))) + ((((#120 * (Li2 (#1 - (mU32 / msq2)))) * logQ3U3) * (pow4 mQ3)) * (power10
      mU3))) - (((#400 * logU3Q3) * (pow4 mQ3)) * (power10 mU3))) - ((((#88 * logQ3U3) * logU3Q3) * (pow4
      mQ3)) * (power10 mU3))) - (((#1920 * logU3mq) * (pow4 mQ3)) * (power10 mU3))) - ((((#480 * logQ3U3) *
      logU3mq) * (pow4 mQ3)) * (power10 mU3))) + (((#240 * (pow2 logQ3mq)) * (pow4 mQ3)) * (power10 mU3))) +
      ((((#60 * logQ3U3) * (pow2 logQ3mq)) * (pow4 mQ3)) * (power10 mU3))) - (((#4124 * (pow2 logQ3U3)) *
      (pow4 mQ3)) * (power10 mU3))) - ((((#2944 * lmQ3MR) * (pow2 logQ3U3)) * (pow4 mQ3)) * (power10 mU3))) +
      ((((#40 * logQ3mq) * (pow2 logQ3U3)) * (pow4 mQ3)) * (power10 mU3))) + (((#1508 * (pow3 logQ3U3)) *
      (pow4 mQ3)) * (power10 mU3)))) / (((#3 * mQ32) * (pow3 mU3)) * (pow7 (mQ32 - mU32))).
Definition xtt_UM_4 (Li2 : R -> R) (mQ32 mU32 mQ3 mU3 msq2 msq lmQ3MR : R) : R :=
    let logQ3U3 := nlog (mQ32 / mU32) in
    let logU3Q3 := - logQ3U3 in
    let logQ3mq := nlog (mQ32 / msq2) in
    let logU3mq := nlog (mU32 / msq2) in
    (#1 *
      ((((((((((((((((((((((((((((((((((((((((((((((((((((((((((((((((((((((((((((((((((((((((((((((((((((((((((((((((((((((((((((((((((((((((((((((((((((((((((((((((((((((((((((((((((((((((((((((((((((((((((((((((((((((((((((((((((((((((((((((((((((((((((((((((((((((((((((((((((((((((((((((((((((((((((((((((((((((((((((((((((((((((((((((((((((((((((((((((((((((((((((((((((((((((((((((((((((((((((((((((((((((((((((((((((((((((((((((((((((((((((((((((((((((((((((((((((((((((((((((((((((((((((#84
      * msq2) * mU32) * (Li2 (#1 - (mU32 / mQ32)))) * (pow14 mQ3)) - (((((#78 * msq2) * mU32) * (Li2 (#1 -
      (mU32 / mQ32)))) * logQ3U3) * (pow14 mQ3))) + (((#244640 * mQ32) * msq2) * (pow14 mU3))) - ((((#13120 *
      lmQ3MR) * mQ32) * msq2) * (pow14 mU3))) + ((((#1800 * mQ32) * msq2) * (Li2 (#1 - (msq2 / mU32)))) *
      (pow14 mU3))) + ((((#80556 * mQ32) * msq2) * (Li2 (#1 - (mU32 / mQ32)))) * (pow14 mU3))) - (((((#10752
      * lmQ3MR) * mQ32) * msq2) * (Li2 (#1 - (mU32 / mQ32)))) * (pow14 mU3))) + ((((#1800 * mQ32) * msq2) *
      (Li2 (#1 - (mU32 / msq2)))) * (pow14 mU3))) - ((((#10560 * mQ32) * msq2) * logQ3mq) * (pow14 mU3))) -
      (((((#7680 * lmQ3MR) * mQ32) * msq2) * logQ3mq) * (pow14 mU3))) + (((((#1920 * mQ32) * msq2) * (Li2 (#1
      - (mU32 / mQ32)))) * logQ3mq) * (pow14 mU3))) + ((((#114224 * mQ32) * msq2) * logQ3U3) * (pow14 mU3)))
      + (((((#70240 * lmQ3MR) * mQ32) * msq2) * logQ3U3) * (pow14 mU3))) + (((((#900 * mQ32) * msq2) * (Li2
      (#1 - (msq2 / mU32)))) * logQ3U3) * (pow14 mU3))) + (((((#24534 * mQ32) * msq2) * (Li2 (#1 - (mU32 /
      mQ32)))) * logQ3U3) * (pow14 mU3))) + (((((#900 * mQ32) * msq2) * (Li2 (#1 - (mU32 / msq2)))) *
      logQ3U3) * (pow14 mU3))) - (((((#7080 * mQ32) * msq2) * logQ3mq) * logQ3U3) * (pow14 mU3))) +
      ((((((#3840 * lmQ3MR) * mQ32) * msq2) * logQ3mq) * logQ3U3) * (pow14 mU3))) - ((((#384 * mQ32) * msq2)
      * logU3Q3) * (pow14 mU3))) - (((((#192 * mQ32) * msq2) * logQ3U3) * logU3Q3) * (pow14 mU3))) + (((#36 *
      msq2) * (Li2 (#1 - (mU32 / mQ32)))) * (pow16 mQ3))) - (((#36 * mU32) * (Li2 (#1 - (mU32 / mQ32)))) *
      (pow16 mQ3))) - ((((#18 * msq2) * (Li2 (#1 - (mU32 / mQ32)))) * logQ3U3) * (pow16 mQ3))) + ((((#18 *
      mU32) * (Li2 (#1 - (mU32 / mQ32)))) * logQ3U3) * (pow16 mQ3))) - ((#261920 * mQ32) * (pow16 mU3))) +
      (((#13120 * lmQ3MR) * mQ32) * (pow16 mU3))) + ((#384 * msq2) * (pow16 mU3))) + (((#10368 * lmQ3MR) *
      msq2) * (pow16 mU3))) - (((#1080 * mQ32) * (Li2 (#1 - (msq2 / mU32)))) * (pow16 mU3))) - (((#80556 *
      mQ32) * (Li2 (#1 - (mU32 / mQ32)))) * (pow16 mU3))) + ((((#10752 * lmQ3MR) * mQ32) * (Li2 (#1 - (mU32 /
      mQ32)))) * (pow16 mU3))) + (((#10440 * mQ32) * (Li2 (#1 - (mU32 / msq2)))) * (pow16 mU3))) + (((#27840
      * mQ32) * logQ3mq) * (pow16 mU3))) + ((((#7680 * lmQ3MR) * mQ32) * logQ3mq) * (pow16 mU3))) - (((#1920
      * msq2) * logQ3mq) * (pow16 mU3))) + ((((#1920 * lmQ3MR) * msq2) * logQ3mq) * (pow16 mU3))) - ((((#1920
      * mQ32) * (Li2 (#1 - (mU32 / mQ32)))) * logQ3mq) * (pow16 mU3))) - (((#140144 * mQ32) * logQ3U3) *
      (pow16 mU3))) - ((((#70240 * lmQ3MR) * mQ32) * logQ3U3) * (pow16 mU3))) - (((#8256 * msq2) * logQ3U3) *
      (pow16 mU3))) + ((((#19392 * lmQ3MR) * msq2) * logQ3U3) * (pow16 mU3))) - ((((#540 * mQ32) * (Li2 (#1 -
      (msq2 / mU32)))) * logQ3U3) * (pow16 mU3))) - ((((#24534 * mQ32) * (Li2 (#1 - (mU32 / mQ32)))) *
      logQ3U3) * (pow16 mU3))) + ((((#5220 * mQ32) * (Li2 (#1 - (mU32 / msq2)))) * logQ3U3) * (pow16 mU3))) +
      ((((#15000 * mQ32) * logQ3mq) * logQ3U3) * (pow16 mU3))) - (((((#3840 * lmQ3MR) * mQ32) * logQ3mq) *
      logQ3U3) * (pow16 mU3))) - ((((#1920 * msq2) * logQ3mq) * logQ3U3) * (pow16 mU3))) + (((#384 * mQ32) *
      logU3Q3) * (pow16 mU3))) + ((((#192 * mQ32) * logQ3U3) * logU3Q3) * (pow16 mU3))) - (((#3840 * mQ32) *
      logU3mq) * (pow16 mU3))) - ((((#1920 * mQ32) * logQ3U3) * logU3mq) * (pow16 mU3))) - (#384 * (pow18
      mU3))) - ((#10368 * lmQ3MR) * (pow18 mU3))) + ((#1920 * logQ3mq) * (pow18 mU3))) - (((#1920 * lmQ3MR) *
      logQ3mq) * (pow18 mU3))) + ((#8256 * logQ3U3) * (pow18 mU3))) - (((#19392 * lmQ3MR) * logQ3U3) * (pow18
      mU3))) + (((#1920 * logQ3mq) * logQ3U3) * (pow18 mU3))) - ((((#4992 * mQ32) * msq2) * (pow14 mU3)) *
      (pow2 lmQ3MR))) - (((((#45504 * mQ32) * msq2) * logQ3U3) * (pow14 mU3)) * (pow2 lmQ3MR))) + (((#4992 *
      mQ32) * (pow16 mU3)) * (pow2 lmQ3MR))) - (((#10752 * msq2) * (pow16 mU3)) * (pow2 lmQ3MR))) +
      ((((#45504 * mQ32) * logQ3U3) * (pow16 mU3)) * (pow2 lmQ3MR))) + ((#10752 * (pow18 mU3)) * (pow2
      lmQ3MR))) + ((((#6660 * mQ32) * msq2) * (pow14 mU3)) * (pow2 logQ3mq))) + (((((#3330 * mQ32) * msq2) *
      logQ3U3) * (pow14 mU3)) * (pow2 logQ3mq))) - (((#540 * mQ32) * (pow16 mU3)) * (pow2 logQ3mq))) -
      ((((#270 * mQ32) * logQ3U3) * (pow16 mU3)) * (pow2 logQ3mq))) + ((((#42 * msq2) * mU32) * (pow14 mQ3))
      * (pow2 logQ3U3))) - ((((#15094 * mQ32) * msq2) * (pow14 mU3)) * (pow2 logQ3U3))) + (((((#82176 *
      lmQ3MR) * mQ32) * msq2) * (pow14 mU3)) * (pow2 logQ3U3))) - (((((#2820 * mQ32) * msq2) * logQ3mq) *
      (pow14 mU3)) * (pow2 logQ3U3))) + (((#18 * msq2) * (pow16 mQ3)) * (pow2 logQ3U3))) - (((#18 * mU32) *
      (pow16 mQ3)) * (pow2 logQ3U3))) + (((#6814 * mQ32) * (pow16 mU3)) * (pow2 logQ3U3))) - ((((#82176 *
      lmQ3MR) * mQ32) * (pow16 mU3)) * (pow2 logQ3U3))) - (((#8640 * msq2) * (pow16 mU3)) * (pow2 logQ3U3)))
      + ((((#2460 * mQ32) * logQ3mq) * (pow16 mU3)) * (pow2 logQ3U3))) + ((#8640 * (pow18 mU3)) * (pow2
      logQ3U3))) - ((((#39 * msq2) * mU32) * (pow14 mQ3)) * (pow3 logQ3U3))) - ((((#30099 * mQ32) * msq2) *
      (pow14 mU3)) * (pow3 logQ3U3))) - (((#9 * msq2) * (pow16 mQ3)) * (pow3 logQ3U3))) + (((#9 * mU32) *
      (pow16 mQ3)) * (pow3 logQ3U3))) + (((#30279 * mQ32) * (pow16 mU3)) * (pow3 logQ3U3))) - (((#1072288 *
      msq2) * (pow12 mU3)) * (pow4 mQ3))) - ((((#170176 * lmQ3MR) * msq2) * (pow12 mU3)) * (pow4 mQ3))) -
      ((((#9000 * msq2) * (Li2 (#1 - (msq2 / mU32)))) * (pow12 mU3)) * (pow4 mQ3))) - ((((#305508 * msq2) *
      (Li2 (#1 - (mU32 / mQ32)))) * (pow12 mU3)) * (pow4 mQ3))) + (((((#53760 * lmQ3MR) * msq2) * (Li2 (#1 -
      (mU32 / mQ32)))) * (pow12 mU3)) * (pow4 mQ3))) + ((((#71640 * msq2) * (Li2 (#1 - (mU32 / msq2)))) *
      (pow12 mU3)) * (pow4 mQ3))) + ((((#120000 * msq2) * logQ3mq) * (pow12 mU3)) * (pow4 mQ3))) + (((((#9600
      * lmQ3MR) * msq2) * logQ3mq) * (pow12 mU3)) * (pow4 mQ3))) - (((((#9600 * msq2) * (Li2 (#1 - (mU32 /
      mQ32)))) * logQ3mq) * (pow12 mU3)) * (pow4 mQ3))) + ((((#24880 * msq2) * logQ3U3) * (pow12 mU3)) *
      (pow4 mQ3))) - (((((#621600 * lmQ3MR) * msq2) * logQ3U3) * (pow12 mU3)) * (pow4 mQ3))) - (((((#2700 *
      msq2) * (Li2 (#1 - (msq2 / mU32)))) * logQ3U3) * (pow12 mU3)) * (pow4 mQ3))) - (((((#13062 * msq2) *
      (Li2 (#1 - (mU32 / mQ32)))) * logQ3U3) * (pow12 mU3)) * (pow4 mQ3))) + (((((#37620 * msq2) * (Li2 (#1 -
      (mU32 / msq2)))) * logQ3U3) * (pow12 mU3)) * (pow4 mQ3))) + (((((#38280 * msq2) * logQ3mq) * logQ3U3) *
      (pow12 mU3)) * (pow4 mQ3))) - ((((((#15360 * lmQ3MR) * msq2) * logQ3mq) * logQ3U3) * (pow12 mU3)) *
      (pow4 mQ3))) + ((((#768 * msq2) * logU3Q3) * (pow12 mU3)) * (pow4 mQ3))) + ((#1118368 * (pow14 mU3)) *
      (pow4 mQ3))) + (((#170176 * lmQ3MR) * (pow14 mU3)) * (pow4 mQ3))) + (((#5400 * (Li2 (#1 - (msq2 /
      mU32)))) * (pow14 mU3)) * (pow4 mQ3))) + (((#305508 * (Li2 (#1 - (mU32 / mQ32)))) * (pow14 mU3)) *
      (pow4 mQ3))) - ((((#53760 * lmQ3MR) * (Li2 (#1 - (mU32 / mQ32)))) * (pow14 mU3)) * (pow4 mQ3))) -
      (((#63720 * (Li2 (#1 - (mU32 / msq2)))) * (pow14 mU3)) * (pow4 mQ3))) - (((#166080 * logQ3mq) * (pow14
      mU3)) * (pow4 mQ3))) - ((((#9600 * lmQ3MR) * logQ3mq) * (pow14 mU3)) * (pow4 mQ3))) + ((((#9600 * (Li2
      (#1 - (mU32 / mQ32)))) * logQ3mq) * (pow14 mU3)) * (pow4 mQ3))) + (((#9680 * logQ3U3) * (pow14 mU3)) *
      (pow4 mQ3))) + ((((#621600 * lmQ3MR) * logQ3U3) * (pow14 mU3)) * (pow4 mQ3))) + ((((#1620 * (Li2 (#1 -
      (msq2 / mU32)))) * logQ3U3) * (pow14 mU3)) * (pow4 mQ3))) + ((((#13062 * (Li2 (#1 - (mU32 / mQ32)))) *
      logQ3U3) * (pow14 mU3)) * (pow4 mQ3))) - ((((#21420 * (Li2 (#1 - (mU32 / msq2)))) * logQ3U3) * (pow14
      mU3)) * (pow4 mQ3))) - ((((#40440 * logQ3mq) * logQ3U3) * (pow14 mU3)) * (pow4 mQ3))) + (((((#15360 *
      lmQ3MR) * logQ3mq) * logQ3U3) * (pow14 mU3)) * (pow4 mQ3))) - (((#768 * logU3Q3) * (pow14 mU3)) * (pow4
      mQ3))) + (((#19200 * logU3mq) * (pow14 mU3)) * (pow4 mQ3))) + ((((#5760 * logQ3U3) * logU3mq) * (pow14
      mU3)) * (pow4 mQ3))) + ((((#186240 * msq2) * (pow12 mU3)) * (pow2 lmQ3MR)) * (pow4 mQ3))) +
      (((((#158016 * msq2) * logQ3U3) * (pow12 mU3)) * (pow2 lmQ3MR)) * (pow4 mQ3))) - (((#186240 * (pow14
      mU3)) * (pow2 lmQ3MR)) * (pow4 mQ3))) - ((((#158016 * logQ3U3) * (pow14 mU3)) * (pow2 lmQ3MR)) * (pow4
      mQ3))) + ((((#7020 * msq2) * (pow12 mU3)) * (pow2 logQ3mq)) * (pow4 mQ3))) + (((((#10170 * msq2) *
      logQ3U3) * (pow12 mU3)) * (pow2 logQ3mq)) * (pow4 mQ3))) - (((#3060 * (pow14 mU3)) * (pow2 logQ3mq)) *
      (pow4 mQ3))) - ((((#2070 * logQ3U3) * (pow14 mU3)) * (pow2 logQ3mq)) * (pow4 mQ3))) + ((((#327498 *
      msq2) * (pow12 mU3)) * (pow2 logQ3U3)) * (pow4 mQ3))) - (((((#264192 * lmQ3MR) * msq2) * (pow12 mU3)) *
      (pow2 logQ3U3)) * (pow4 mQ3))) - (((((#1140 * msq2) * logQ3mq) * (pow12 mU3)) * (pow2 logQ3U3)) * (pow4
      mQ3))) - (((#332178 * (pow14 mU3)) * (pow2 logQ3U3)) * (pow4 mQ3))) + ((((#264192 * lmQ3MR) * (pow14
      mU3)) * (pow2 logQ3U3)) * (pow4 mQ3))) + ((((#2220 * logQ3mq) * (pow14 mU3)) * (pow2 logQ3U3)) * (pow4
      mQ3))) + ((((#145527 * msq2) * (pow12 mU3)) * (pow3 logQ3U3)) * (pow4 mQ3))) - (((#146067 * (pow14
      mU3)) * (pow3 logQ3U3)) * (pow4 mQ3))) + ((((#360 * mU32) * (Li2 (#1 - (msq2 / mU32)))) * (pow12 mQ3))
      * (pow4 msq))) + ((((#360 * mU32) * (Li2 (#1 - (mU32 / msq2)))) * (pow12 mQ3)) * (pow4 msq))) -
      (((((#180 * mU32) * (Li2 (#1 - (msq2 / mU32)))) * logQ3U3) * (pow12 mQ3)) * (pow4 msq))) - (((((#180 *
      mU32) * (Li2 (#1 - (mU32 / msq2)))) * logQ3U3) * (pow12 mQ3)) * (pow4 msq))) - (((((#360 * mU32) *
      logQ3mq) * logQ3U3) * (pow12 mQ3)) * (pow4 msq))) + (((#17280 * mQ32) * (pow12 mU3)) * (pow4 msq))) -
      ((((#360 * mQ32) * (Li2 (#1 - (msq2 / mU32)))) * (pow12 mU3)) * (pow4 msq))) - ((((#29160 * mQ32) *
      (Li2 (#1 - (mU32 / msq2)))) * (pow12 mU3)) * (pow4 msq))) - ((((#17280 * mQ32) * logQ3mq) * (pow12
      mU3)) * (pow4 msq))) + ((((#25920 * mQ32) * logQ3U3) * (pow12 mU3)) * (pow4 msq))) - (((((#180 * mQ32)
      * (Li2 (#1 - (msq2 / mU32)))) * logQ3U3) * (pow12 mU3)) * (pow4 msq))) - (((((#14580 * mQ32) * (Li2 (#1
      - (mU32 / msq2)))) * logQ3U3) * (pow12 mU3)) * (pow4 msq))) - (((((#8280 * mQ32) * logQ3mq) * logQ3U3)
      * (pow12 mU3)) * (pow4 msq))) + ((((#180 * mU32) * (pow12 mQ3)) * (pow2 logQ3mq)) * (pow4 msq))) -
      (((((#90 * mU32) * logQ3U3) * (pow12 mQ3)) * (pow2 logQ3mq)) * (pow4 msq))) - ((((#14580 * mQ32) *
      (pow12 mU3)) * (pow2 logQ3mq)) * (pow4 msq))) - (((((#7290 * mQ32) * logQ3U3) * (pow12 mU3)) * (pow2
      logQ3mq)) * (pow4 msq))) + ((((#180 * mU32) * (pow12 mQ3)) * (pow2 logQ3U3)) * (pow4 msq))) + (((((#180
      * mU32) * logQ3mq) * (pow12 mQ3)) * (pow2 logQ3U3)) * (pow4 msq))) + ((((#8460 * mQ32) * (pow12 mU3)) *
      (pow2 logQ3U3)) * (pow4 msq))) + (((((#180 * mQ32) * logQ3mq) * (pow12 mU3)) * (pow2 logQ3U3)) * (pow4
      msq))) - ((((#90 * mU32) * (pow12 mQ3)) * (pow3 logQ3U3)) * (pow4 msq))) - ((((#90 * mQ32) * (pow12
      mU3)) * (pow3 logQ3U3)) * (pow4 msq))) - (((#59936 * msq2) * (pow12 mQ3)) * (pow4 mU3))) - ((((#117440
      * lmQ3MR) * msq2) * (pow12 mQ3)) * (pow4 mU3))) - ((((#1800 * msq2) * (Li2 (#1 - (msq2 / mU32)))) *
      (pow12 mQ3)) * (pow4 mU3))) + ((((#6804 * msq2) * (Li2 (#1 - (mU32 / mQ32)))) * (pow12 mQ3)) * (pow4
      mU3))) + (((((#10752 * lmQ3MR) * msq2) * (Li2 (#1 - (mU32 / mQ32)))) * (pow12 mQ3)) * (pow4 mU3))) +
      ((((#3960 * msq2) * (Li2 (#1 - (mU32 / msq2)))) * (pow12 mQ3)) * (pow4 mU3))) + ((((#35520 * msq2) *
      logQ3mq) * (pow12 mQ3)) * (pow4 mU3))) - (((((#1920 * lmQ3MR) * msq2) * logQ3mq) * (pow12 mQ3)) * (pow4
      mU3))) - (((((#1920 * msq2) * (Li2 (#1 - (mU32 / mQ32)))) * logQ3mq) * (pow12 mQ3)) * (pow4 mU3))) +
      ((((#80112 * msq2) * logQ3U3) * (pow12 mQ3)) * (pow4 mU3))) + (((((#12256 * lmQ3MR) * msq2) * logQ3U3)
      * (pow12 mQ3)) * (pow4 mU3))) + (((((#900 * msq2) * (Li2 (#1 - (msq2 / mU32)))) * logQ3U3) * (pow12
      mQ3)) * (pow4 mU3))) - (((((#7362 * msq2) * (Li2 (#1 - (mU32 / mQ32)))) * logQ3U3) * (pow12 mQ3)) *
      (pow4 mU3))) - (((((#1980 * msq2) * (Li2 (#1 - (mU32 / msq2)))) * logQ3U3) * (pow12 mQ3)) * (pow4
      mU3))) - (((((#16920 * msq2) * logQ3mq) * logQ3U3) * (pow12 mQ3)) * (pow4 mU3))) - ((((#768 * msq2) *
      logU3Q3) * (pow12 mQ3)) * (pow4 mU3))) + (((((#384 * msq2) * logQ3U3) * logU3Q3) * (pow12 mQ3)) * (pow4
      mU3))) - (((#84 * (Li2 (#1 - (mU32 / mQ32)))) * (pow14 mQ3)) * (pow4 mU3))) + ((((#78 * (Li2 (#1 -
      (mU32 / mQ32)))) * logQ3U3) * (pow14 mQ3)) * (pow4 mU3))) + ((((#58752 * msq2) * (pow12 mQ3)) * (pow2
      lmQ3MR)) * (pow4 mU3))) - (((((#24000 * msq2) * logQ3U3) * (pow12 mQ3)) * (pow2 lmQ3MR)) * (pow4 mU3)))
      - ((((#3780 * msq2) * (pow12 mQ3)) * (pow2 logQ3mq)) * (pow4 mU3))) + (((((#1890 * msq2) * logQ3U3) *
      (pow12 mQ3)) * (pow2 logQ3mq)) * (pow4 mU3))) - ((((#19306 * msq2) * (pow12 mQ3)) * (pow2 logQ3U3)) *
      (pow4 mU3))) + (((((#13248 * lmQ3MR) * msq2) * (pow12 mQ3)) * (pow2 logQ3U3)) * (pow4 mU3))) +
      (((((#1020 * msq2) * logQ3mq) * (pow12 mQ3)) * (pow2 logQ3U3)) * (pow4 mU3))) - (((#42 * (pow14 mQ3)) *
      (pow2 logQ3U3)) * (pow4 mU3))) - ((((#63 * msq2) * (pow12 mQ3)) * (pow3 logQ3U3)) * (pow4 mU3))) +
      (((#39 * (pow14 mQ3)) * (pow3 logQ3U3)) * (pow4 mU3))) + ((((((((#2880 * mQ32) * (mQ32 - msq2)) * (mQ32
      - mU32)) * (msq2 - mU32)) * (Li2 (#1 - (msq2 / mQ32)))) * (((#(-2) * mQ32) + (#2 * mU32)) + ((mQ32 +
      mU32) * logQ3U3))) * ((((mQ32 * (msq2 - (#3 * mU32))) + ((#3 * msq2) * mU32)) + (pow4 mQ3)) - (#2 *
      (pow4 mU3)))) * (pow4 mU3))) - ((#1839680 * (pow12 mU3)) * (pow6 mQ3))) - (((#603008 * lmQ3MR) * (pow12
      mU3)) * (pow6 mQ3))) - (((#10800 * (Li2 (#1 - (msq2 / mU32)))) * (pow12 mU3)) * (pow6 mQ3))) -
      (((#425916 * (Li2 (#1 - (mU32 / mQ32)))) * (pow12 mU3)) * (pow6 mQ3))) + ((((#107520 * lmQ3MR) * (Li2
      (#1 - (mU32 / mQ32)))) * (pow12 mU3)) * (pow6 mQ3))) + (((#110160 * (Li2 (#1 - (mU32 / msq2)))) *
      (pow12 mU3)) * (pow6 mQ3))) + (((#347520 * logQ3mq) * (pow12 mU3)) * (pow6 mQ3))) - ((((#19200 * (Li2
      (#1 - (mU32 / mQ32)))) * logQ3mq) * (pow12 mU3)) * (pow6 mQ3))) + (((#823968 * logQ3U3) * (pow12 mU3))
      * (pow6 mQ3))) - ((((#1234112 * lmQ3MR) * logQ3U3) * (pow12 mU3)) * (pow6 mQ3))) - ((((#1080 * (Li2 (#1
      - (msq2 / mU32)))) * logQ3U3) * (pow12 mU3)) * (pow6 mQ3))) + ((((#91098 * (Li2 (#1 - (mU32 / mQ32))))
      * logQ3U3) * (pow12 mU3)) * (pow6 mQ3))) + ((((#1800 * (Li2 (#1 - (mU32 / msq2)))) * logQ3U3) * (pow12
      mU3)) * (pow6 mQ3))) + ((((#17520 * logQ3mq) * logQ3U3) * (pow12 mU3)) * (pow6 mQ3))) - (((((#23040 *
      lmQ3MR) * logQ3mq) * logQ3U3) * (pow12 mU3)) * (pow6 mQ3))) - (((#768 * logU3Q3) * (pow12 mU3)) * (pow6
      mQ3))) - ((((#768 * logQ3U3) * logU3Q3) * (pow12 mU3)) * (pow6 mQ3))) - (((#38400 * logU3mq) * (pow12
      mU3)) * (pow6 mQ3))) - ((((#3840 * logQ3U3) * logU3mq) * (pow12 mU3)) * (pow6 mQ3))) + (((#480000 *
      (pow12 mU3)) * (pow2 lmQ3MR)) * (pow6 mQ3))) + ((((#177024 * logQ3U3) * (pow12 mU3)) * (pow2 lmQ3MR)) *
      (pow6 mQ3))) - (((#2520 * (pow12 mU3)) * (pow2 logQ3mq)) * (pow6 mQ3))) - ((((#4860 * logQ3U3) * (pow12
      mU3)) * (pow2 logQ3mq)) * (pow6 mQ3))) + (((#658922 * (pow12 mU3)) * (pow2 logQ3U3)) * (pow6 mQ3))) -
      ((((#206016 * lmQ3MR) * (pow12 mU3)) * (pow2 logQ3U3)) * (pow6 mQ3))) + ((((#10680 * logQ3mq) * (pow12
      mU3)) * (pow2 logQ3U3)) * (pow6 mQ3))) + (((#125745 * (pow12 mU3)) * (pow3 logQ3U3)) * (pow6 mQ3))) +
      (((#360 * (Li2 (#1 - (msq2 / mU32)))) * (pow12 mQ3)) * (pow6 msq))) + (((#360 * (Li2 (#1 - (mU32 /
      msq2)))) * (pow12 mQ3)) * (pow6 msq))) - ((((#180 * (Li2 (#1 - (msq2 / mU32)))) * logQ3U3) * (pow12
      mQ3)) * (pow6 msq))) - ((((#180 * (Li2 (#1 - (mU32 / msq2)))) * logQ3U3) * (pow12 mQ3)) * (pow6 msq)))
      - ((((#360 * logQ3mq) * logQ3U3) * (pow12 mQ3)) * (pow6 msq))) + (((#180 * (pow12 mQ3)) * (pow2
      logQ3mq)) * (pow6 msq))) - ((((#90 * logQ3U3) * (pow12 mQ3)) * (pow2 logQ3mq)) * (pow6 msq))) + (((#180
      * (pow12 mQ3)) * (pow2 logQ3U3)) * (pow6 msq))) + ((((#180 * logQ3mq) * (pow12 mQ3)) * (pow2 logQ3U3))
      * (pow6 msq))) - (((#90 * (pow12 mQ3)) * (pow3 logQ3U3)) * (pow6 msq))) + ((((((#6 * mQ32) * ((- msq2)
      + mU32)) * (Li2 (#1 - (mQ32 / mU32)))) * (((#(-2) * mQ32) + (#2 * mU32)) + ((mQ32 + mU32) * logQ3U3)))
      * (pow3 (mQ32 - mU32))) * (((((#19 * mU32) * (pow4 mQ3)) - ((#31 * mQ32) * (pow4 mU3))) + (#3 * (pow6
      mQ3))) - (#119 * (pow6 mU3))))) + ((#59936 * (pow12 mQ3)) * (pow6 mU3))) + (((#117440 * lmQ3MR) *
      (pow12 mQ3)) * (pow6 mU3))) + (((#1080 * (Li2 (#1 - (msq2 / mU32)))) * (pow12 mQ3)) * (pow6 mU3))) -
      (((#6804 * (Li2 (#1 - (mU32 / mQ32)))) * (pow12 mQ3)) * (pow6 mU3))) - ((((#10752 * lmQ3MR) * (Li2 (#1
      - (mU32 / mQ32)))) * (pow12 mQ3)) * (pow6 mU3))) - (((#4680 * (Li2 (#1 - (mU32 / msq2)))) * (pow12
      mQ3)) * (pow6 mU3))) - (((#35520 * logQ3mq) * (pow12 mQ3)) * (pow6 mU3))) + ((((#1920 * lmQ3MR) *
      logQ3mq) * (pow12 mQ3)) * (pow6 mU3))) + ((((#1920 * (Li2 (#1 - (mU32 / mQ32)))) * logQ3mq) * (pow12
      mQ3)) * (pow6 mU3))) - (((#80112 * logQ3U3) * (pow12 mQ3)) * (pow6 mU3))) - ((((#12256 * lmQ3MR) *
      logQ3U3) * (pow12 mQ3)) * (pow6 mU3))) - ((((#540 * (Li2 (#1 - (msq2 / mU32)))) * logQ3U3) * (pow12
      mQ3)) * (pow6 mU3))) + ((((#7362 * (Li2 (#1 - (mU32 / mQ32)))) * logQ3U3) * (pow12 mQ3)) * (pow6 mU3)))
      + ((((#2340 * (Li2 (#1 - (mU32 / msq2)))) * logQ3U3) * (pow12 mQ3)) * (pow6 mU3))) + ((((#17640 *
      logQ3mq) * logQ3U3) * (pow12 mQ3)) * (pow6 mU3))) + (((#768 * logU3Q3) * (pow12 mQ3)) * (pow6 mU3))) -
      ((((#384 * logQ3U3) * logU3Q3) * (pow12 mQ3)) * (pow6 mU3))) + (((#3840 * logU3mq) * (pow12 mQ3)) *
      (pow6 mU3))) - ((((#1920 * logQ3U3) * logU3mq) * (pow12 mQ3)) * (pow6 mU3))) - (((#58752 * (pow12 mQ3))
      * (pow2 lmQ3MR)) * (pow6 mU3))) + ((((#24000 * logQ3U3) * (pow12 mQ3)) * (pow2 lmQ3MR)) * (pow6 mU3)))
      + (((#3420 * (pow12 mQ3)) * (pow2 logQ3mq)) * (pow6 mU3))) - ((((#1710 * logQ3U3) * (pow12 mQ3)) *
      (pow2 logQ3mq)) * (pow6 mU3))) + (((#18946 * (pow12 mQ3)) * (pow2 logQ3U3)) * (pow6 mU3))) - ((((#13248
      * lmQ3MR) * (pow12 mQ3)) * (pow2 logQ3U3)) * (pow6 mU3))) - ((((#1380 * logQ3mq) * (pow12 mQ3)) * (pow2
      logQ3U3)) * (pow6 mU3))) + (((#243 * (pow12 mQ3)) * (pow3 logQ3U3)) * (pow6 mU3))) - ((((#3600 * (Li2
      (#1 - (msq2 / mU32)))) * (pow6 mQ3)) * (pow6 msq)) * (pow6 mU3))) + ((((#2160 * (Li2 (#1 - (mU32 /
      msq2)))) * (pow6 mQ3)) * (pow6 msq)) * (pow6 mU3))) - (((((#360 * (Li2 (#1 - (msq2 / mU32)))) *
      logQ3U3) * (pow6 mQ3)) * (pow6 msq)) * (pow6 mU3))) - (((((#9000 * (Li2 (#1 - (mU32 / msq2)))) *
      logQ3U3) * (pow6 mQ3)) * (pow6 msq)) * (pow6 mU3))) + (((((#3600 * logQ3mq) * logQ3U3) * (pow6 mQ3)) *
      (pow6 msq)) * (pow6 mU3))) + ((((#1080 * (pow2 logQ3mq)) * (pow6 mQ3)) * (pow6 msq)) * (pow6 mU3))) -
      (((((#4500 * logQ3U3) * (pow2 logQ3mq)) * (pow6 mQ3)) * (pow6 msq)) * (pow6 mU3))) - ((((#1800 * (pow2
      logQ3U3)) * (pow6 mQ3)) * (pow6 msq)) * (pow6 mU3))) + (((((#360 * logQ3mq) * (pow2 logQ3U3)) * (pow6
      mQ3)) * (pow6 msq)) * (pow6 mU3))) - ((((#180 * (pow3 logQ3U3)) * (pow6 mQ3)) * (pow6 msq)) * (pow6
      mU3))) + ((((#3600 * (Li2 (#1 - (msq2 / mU32)))) * (pow4 mU3)) * (pow6 msq)) * (pow8 mQ3))) + ((((#9360
      * (Li2 (#1 - (mU32 / msq2)))) * (pow4 mU3)) * (pow6 msq)) * (pow8 mQ3))) - (((((#360 * (Li2 (#1 - (msq2
      / mU32)))) * logQ3U3) * (pow4 mU3)) * (pow6 msq)) * (pow8 mQ3))) - (((((#3240 * (Li2 (#1 - (mU32 /
      msq2)))) * logQ3U3) * (pow4 mU3)) * (pow6 msq)) * (pow8 mQ3))) - (((((#3600 * logQ3mq) * logQ3U3) *
      (pow4 mU3)) * (pow6 msq)) * (pow8 mQ3))) + ((((#4680 * (pow2 logQ3mq)) * (pow4 mU3)) * (pow6 msq)) *
      (pow8 mQ3))) - (((((#1620 * logQ3U3) * (pow2 logQ3mq)) * (pow4 mU3)) * (pow6 msq)) * (pow8 mQ3))) +
      ((((#1800 * (pow2 logQ3U3)) * (pow4 mU3)) * (pow6 msq)) * (pow8 mQ3))) + (((((#360 * logQ3mq) * (pow2
      logQ3U3)) * (pow4 mU3)) * (pow6 msq)) * (pow8 mQ3))) - ((((#180 * (pow3 logQ3U3)) * (pow4 mU3)) * (pow6
      msq)) * (pow8 mQ3))) + ((((#3600 * (Li2 (#1 - (msq2 / mU32)))) * (pow4 msq)) * (pow6 mU3)) * (pow8
      mQ3))) - ((((#36720 * (Li2 (#1 - (mU32 / msq2)))) * (pow4 msq)) * (pow6 mU3)) * (pow8 mQ3))) +
      ((((#11520 * logQ3U3) * (pow4 msq)) * (pow6 mU3)) * (pow8 mQ3))) - (((((#360 * (Li2 (#1 - (msq2 /
      mU32)))) * logQ3U3) * (pow4 msq)) * (pow6 mU3)) * (pow8 mQ3))) + (((((#19800 * (Li2 (#1 - (mU32 /
      msq2)))) * logQ3U3) * (pow4 msq)) * (pow6 mU3)) * (pow8 mQ3))) - (((((#9360 * logQ3mq) * logQ3U3) *
      (pow4 msq)) * (pow6 mU3)) * (pow8 mQ3))) - ((((#18360 * (pow2 logQ3mq)) * (pow4 msq)) * (pow6 mU3)) *
      (pow8 mQ3))) + (((((#9900 * logQ3U3) * (pow2 logQ3mq)) * (pow4 msq)) * (pow6 mU3)) * (pow8 mQ3))) -
      ((((#1080 * (pow2 logQ3U3)) * (pow4 msq)) * (pow6 mU3)) * (pow8 mQ3))) + (((((#360 * logQ3mq) * (pow2
      logQ3U3)) * (pow4 msq)) * (pow6 mU3)) * (pow8 mQ3))) - ((((#180 * (pow3 logQ3U3)) * (pow4 msq)) * (pow6
      mU3)) * (pow8 mQ3))) + (((#34560 * (pow4 msq)) * (pow6 mQ3)) * (pow8 mU3))) - ((((#3600 * (Li2 (#1 -
      (msq2 / mU32)))) * (pow4 msq)) * (pow6 mQ3)) * (pow8 mU3))) + ((((#48240 * (Li2 (#1 - (mU32 / msq2))))
      * (pow4 msq)) * (pow6 mQ3)) * (pow8 mU3))) - ((((#34560 * logQ3mq) * (pow4 msq)) * (pow6 mQ3)) * (pow8
      mU3))) - ((((#5760 * logQ3U3) * (pow4 msq)) * (pow6 mQ3)) * (pow8 mU3))) - (((((#360 * (Li2 (#1 - (msq2
      / mU32)))) * logQ3U3) * (pow4 msq)) * (pow6 mQ3)) * (pow8 mU3))) + (((((#14040 * (Li2 (#1 - (mU32 /
      msq2)))) * logQ3U3) * (pow4 msq)) * (pow6 mQ3)) * (pow8 mU3))) + (((((#15120 * logQ3mq) * logQ3U3) *
      (pow4 msq)) * (pow6 mQ3)) * (pow8 mU3))) + ((((#24120 * (pow2 logQ3mq)) * (pow4 msq)) * (pow6 mQ3)) *
      (pow8 mU3))) + (((((#7020 * logQ3U3) * (pow2 logQ3mq)) * (pow4 msq)) * (pow6 mQ3)) * (pow8 mU3))) -
      ((((#10440 * (pow2 logQ3U3)) * (pow4 msq)) * (pow6 mQ3)) * (pow8 mU3))) + (((((#360 * logQ3mq) * (pow2
      logQ3U3)) * (pow4 msq)) * (pow6 mQ3)) * (pow8 mU3))) - ((((#180 * (pow3 logQ3U3)) * (pow4 msq)) * (pow6
      mQ3)) * (pow8 mU3))) + ((((#1800 * (Li2 (#1 - (msq2 / mU32)))) * (pow4 mQ3)) * (pow6 msq)) * (pow8
      mU3))) - ((((#27000 * (Li2 (#1 - (mU32 / msq2)))) * (pow4 mQ3)) * (pow6 msq)) * (pow8 mU3))) +
      (((((#540 * (Li2 (#1 - (msq2 / mU32)))) * logQ3U3) * (pow4 mQ3)) * (pow6 msq)) * (pow8 mU3))) +
      (((((#3420 * (Li2 (#1 - (mU32 / msq2)))) * logQ3U3) * (pow4 mQ3)) * (pow6 msq)) * (pow8 mU3))) -
      (((((#1800 * logQ3mq) * logQ3U3) * (pow4 mQ3)) * (pow6 msq)) * (pow8 mU3))) - ((((#13500 * (pow2
      logQ3mq)) * (pow4 mQ3)) * (pow6 msq)) * (pow8 mU3))) + (((((#1710 * logQ3U3) * (pow2 logQ3mq)) * (pow4
      mQ3)) * (pow6 msq)) * (pow8 mU3))) + ((((#900 * (pow2 logQ3U3)) * (pow4 mQ3)) * (pow6 msq)) * (pow8
      mU3))) - (((((#540 * logQ3mq) * (pow2 logQ3U3)) * (pow4 mQ3)) * (pow6 msq)) * (pow8 mU3))) + ((((#270 *
      (pow3 logQ3U3)) * (pow4 mQ3)) * (pow6 msq)) * (pow8 mU3))) - (((#1433792 * msq2) * (pow8 mQ3)) * (pow8
      mU3))) - ((((#812288 * lmQ3MR) * msq2) * (pow8 mQ3)) * (pow8 mU3))) - ((((#18000 * msq2) * (Li2 (#1 -
      (msq2 / mU32)))) * (pow8 mQ3)) * (pow8 mU3))) - ((((#250452 * msq2) * (Li2 (#1 - (mU32 / mQ32)))) *
      (pow8 mQ3)) * (pow8 mU3))) + (((((#107520 * lmQ3MR) * msq2) * (Li2 (#1 - (mU32 / mQ32)))) * (pow8 mQ3))
      * (pow8 mU3))) + ((((#102960 * msq2) * (Li2 (#1 - (mU32 / msq2)))) * (pow8 mQ3)) * (pow8 mU3))) +
      ((((#353280 * msq2) * logQ3mq) * (pow8 mQ3)) * (pow8 mU3))) - (((((#9600 * lmQ3MR) * msq2) * logQ3mq) *
      (pow8 mQ3)) * (pow8 mU3))) - (((((#19200 * msq2) * (Li2 (#1 - (mU32 / mQ32)))) * logQ3mq) * (pow8 mQ3))
      * (pow8 mU3))) + ((((#1226272 * msq2) * logQ3U3) * (pow8 mQ3)) * (pow8 mU3))) - (((((#969088 * lmQ3MR)
      * msq2) * logQ3U3) * (pow8 mQ3)) * (pow8 mU3))) + (((((#1800 * msq2) * (Li2 (#1 - (msq2 / mU32)))) *
      logQ3U3) * (pow8 mQ3)) * (pow8 mU3))) + (((((#115674 * msq2) * (Li2 (#1 - (mU32 / mQ32)))) * logQ3U3) *
      (pow8 mQ3)) * (pow8 mU3))) - (((((#35640 * msq2) * (Li2 (#1 - (mU32 / msq2)))) * logQ3U3) * (pow8 mQ3))
      * (pow8 mU3))) - (((((#21360 * msq2) * logQ3mq) * logQ3U3) * (pow8 mQ3)) * (pow8 mU3))) - ((((((#15360
      * lmQ3MR) * msq2) * logQ3mq) * logQ3U3) * (pow8 mQ3)) * (pow8 mU3))) - ((((#3072 * msq2) * logU3Q3) *
      (pow8 mQ3)) * (pow8 mU3))) - (((((#384 * msq2) * logQ3U3) * logU3Q3) * (pow8 mQ3)) * (pow8 mU3))) +
      ((((#533760 * msq2) * (pow2 lmQ3MR)) * (pow8 mQ3)) * (pow8 mU3))) + (((((#38016 * msq2) * logQ3U3) *
      (pow2 lmQ3MR)) * (pow8 mQ3)) * (pow8 mU3))) - ((((#6120 * msq2) * (pow2 logQ3mq)) * (pow8 mQ3)) * (pow8
      mU3))) - (((((#12060 * msq2) * logQ3U3) * (pow2 logQ3mq)) * (pow8 mQ3)) * (pow8 mU3))) + ((((#363790 *
      msq2) * (pow2 logQ3U3)) * (pow8 mQ3)) * (pow8 mU3))) + (((((#63552 * lmQ3MR) * msq2) * (pow2 logQ3U3))
      * (pow8 mQ3)) * (pow8 mU3))) + (((((#15480 * msq2) * logQ3mq) * (pow2 logQ3U3)) * (pow8 mQ3)) * (pow8
      mU3))) - ((((#58287 * msq2) * (pow3 logQ3U3)) * (pow8 mQ3)) * (pow8 mU3))) - (((#5760 * (pow4 msq)) *
      (pow4 mU3)) * (power10 mQ3))) - ((((#1800 * (Li2 (#1 - (msq2 / mU32)))) * (pow4 msq)) * (pow4 mU3)) *
      (power10 mQ3))) - ((((#1800 * (Li2 (#1 - (mU32 / msq2)))) * (pow4 msq)) * (pow4 mU3)) * (power10 mQ3)))
      + ((((#5760 * logQ3mq) * (pow4 msq)) * (pow4 mU3)) * (power10 mQ3))) + ((((#2880 * logQ3U3) * (pow4
      msq)) * (pow4 mU3)) * (power10 mQ3))) + (((((#540 * (Li2 (#1 - (msq2 / mU32)))) * logQ3U3) * (pow4
      msq)) * (pow4 mU3)) * (power10 mQ3))) + (((((#540 * (Li2 (#1 - (mU32 / msq2)))) * logQ3U3) * (pow4
      msq)) * (pow4 mU3)) * (power10 mQ3))) - (((((#1080 * logQ3mq) * logQ3U3) * (pow4 msq)) * (pow4 mU3)) *
      (power10 mQ3))) - ((((#900 * (pow2 logQ3mq)) * (pow4 msq)) * (pow4 mU3)) * (power10 mQ3))) + (((((#270
      * logQ3U3) * (pow2 logQ3mq)) * (pow4 msq)) * (pow4 mU3)) * (power10 mQ3))) - ((((#900 * (pow2 logQ3U3))
      * (pow4 msq)) * (pow4 mU3)) * (power10 mQ3))) - (((((#540 * logQ3mq) * (pow2 logQ3U3)) * (pow4 msq)) *
      (pow4 mU3)) * (power10 mQ3))) + ((((#270 * (pow3 logQ3U3)) * (pow4 msq)) * (pow4 mU3)) * (power10
      mQ3))) - ((((#1800 * mU32) * (Li2 (#1 - (msq2 / mU32)))) * (pow6 msq)) * (power10 mQ3))) - ((((#1800 *
      mU32) * (Li2 (#1 - (mU32 / msq2)))) * (pow6 msq)) * (power10 mQ3))) + (((((#540 * mU32) * (Li2 (#1 -
      (msq2 / mU32)))) * logQ3U3) * (pow6 msq)) * (power10 mQ3))) + (((((#540 * mU32) * (Li2 (#1 - (mU32 /
      msq2)))) * logQ3U3) * (pow6 msq)) * (power10 mQ3))) + (((((#1800 * mU32) * logQ3mq) * logQ3U3) * (pow6
      msq)) * (power10 mQ3))) - ((((#900 * mU32) * (pow2 logQ3mq)) * (pow6 msq)) * (power10 mQ3))) +
      (((((#270 * mU32) * logQ3U3) * (pow2 logQ3mq)) * (pow6 msq)) * (power10 mQ3))) - ((((#900 * mU32) *
      (pow2 logQ3U3)) * (pow6 msq)) * (power10 mQ3))) - (((((#540 * mU32) * logQ3mq) * (pow2 logQ3U3)) *
      (pow6 msq)) * (power10 mQ3))) + ((((#270 * mU32) * (pow3 logQ3U3)) * (pow6 msq)) * (power10 mQ3))) +
      (((#515872 * msq2) * (pow6 mU3)) * (power10 mQ3))) + ((((#499648 * lmQ3MR) * msq2) * (pow6 mU3)) *
      (power10 mQ3))) + ((((#9000 * msq2) * (Li2 (#1 - (msq2 / mU32)))) * (pow6 mU3)) * (power10 mQ3))) +
      ((((#42564 * msq2) * (Li2 (#1 - (mU32 / mQ32)))) * (pow6 mU3)) * (power10 mQ3))) - (((((#53760 *
      lmQ3MR) * msq2) * (Li2 (#1 - (mU32 / mQ32)))) * (pow6 mU3)) * (power10 mQ3))) - ((((#19800 * msq2) *
      (Li2 (#1 - (mU32 / msq2)))) * (pow6 mU3)) * (power10 mQ3))) - ((((#183360 * msq2) * logQ3mq) * (pow6
      mU3)) * (power10 mQ3))) + (((((#7680 * lmQ3MR) * msq2) * logQ3mq) * (pow6 mU3)) * (power10 mQ3))) +
      (((((#9600 * msq2) * (Li2 (#1 - (mU32 / mQ32)))) * logQ3mq) * (pow6 mU3)) * (power10 mQ3))) -
      ((((#619024 * msq2) * logQ3U3) * (pow6 mU3)) * (power10 mQ3))) + (((((#254688 * lmQ3MR) * msq2) *
      logQ3U3) * (pow6 mU3)) * (power10 mQ3))) - (((((#2700 * msq2) * (Li2 (#1 - (msq2 / mU32)))) * logQ3U3)
      * (pow6 mU3)) * (power10 mQ3))) - (((((#28590 * msq2) * (Li2 (#1 - (mU32 / mQ32)))) * logQ3U3) * (pow6
      mU3)) * (power10 mQ3))) + (((((#5940 * msq2) * (Li2 (#1 - (mU32 / msq2)))) * logQ3U3) * (pow6 mU3)) *
      (power10 mQ3))) + (((((#45240 * msq2) * logQ3mq) * logQ3U3) * (pow6 mU3)) * (power10 mQ3))) +
      ((((((#3840 * lmQ3MR) * msq2) * logQ3mq) * logQ3U3) * (pow6 mU3)) * (power10 mQ3))) + ((((#2688 * msq2)
      * logU3Q3) * (pow6 mU3)) * (power10 mQ3))) - (((((#576 * msq2) * logQ3U3) * logU3Q3) * (pow6 mU3)) *
      (power10 mQ3))) - ((((#283008 * msq2) * (pow2 lmQ3MR)) * (pow6 mU3)) * (power10 mQ3))) + (((((#50496 *
      msq2) * logQ3U3) * (pow2 lmQ3MR)) * (pow6 mU3)) * (power10 mQ3))) + ((((#18900 * msq2) * (pow2
      logQ3mq)) * (pow6 mU3)) * (power10 mQ3))) - (((((#5670 * msq2) * logQ3U3) * (pow2 logQ3mq)) * (pow6
      mU3)) * (power10 mQ3))) - ((((#1626 * msq2) * (pow2 logQ3U3)) * (pow6 mU3)) * (power10 mQ3))) -
      (((((#100800 * lmQ3MR) * msq2) * (pow2 logQ3U3)) * (pow6 mU3)) * (power10 mQ3))) - (((((#1140 * msq2) *
      logQ3mq) * (pow2 logQ3U3)) * (pow6 mU3)) * (power10 mQ3))) + ((((#67587 * msq2) * (pow3 logQ3U3)) *
      (pow6 mU3)) * (power10 mQ3))) - ((#510112 * (pow8 mU3)) * (power10 mQ3))) - (((#499648 * lmQ3MR) *
      (pow8 mU3)) * (power10 mQ3))) - (((#5400 * (Li2 (#1 - (msq2 / mU32)))) * (pow8 mU3)) * (power10 mQ3)))
      - (((#42564 * (Li2 (#1 - (mU32 / mQ32)))) * (pow8 mU3)) * (power10 mQ3))) + ((((#53760 * lmQ3MR) * (Li2
      (#1 - (mU32 / mQ32)))) * (pow8 mU3)) * (power10 mQ3))) + (((#23400 * (Li2 (#1 - (mU32 / msq2)))) *
      (pow8 mU3)) * (power10 mQ3))) + (((#177600 * logQ3mq) * (pow8 mU3)) * (power10 mQ3))) - ((((#7680 *
      lmQ3MR) * logQ3mq) * (pow8 mU3)) * (power10 mQ3))) - ((((#9600 * (Li2 (#1 - (mU32 / mQ32)))) * logQ3mq)
      * (pow8 mU3)) * (power10 mQ3))) + (((#616144 * logQ3U3) * (pow8 mU3)) * (power10 mQ3))) - ((((#254688 *
      lmQ3MR) * logQ3U3) * (pow8 mU3)) * (power10 mQ3))) + ((((#1620 * (Li2 (#1 - (msq2 / mU32)))) * logQ3U3)
      * (pow8 mU3)) * (power10 mQ3))) + ((((#28590 * (Li2 (#1 - (mU32 / mQ32)))) * logQ3U3) * (pow8 mU3)) *
      (power10 mQ3))) - ((((#7020 * (Li2 (#1 - (mU32 / msq2)))) * logQ3U3) * (pow8 mU3)) * (power10 mQ3))) -
      ((((#45960 * logQ3mq) * logQ3U3) * (pow8 mU3)) * (power10 mQ3))) - (((((#3840 * lmQ3MR) * logQ3mq) *
      logQ3U3) * (pow8 mU3)) * (power10 mQ3))) - (((#2688 * logU3Q3) * (pow8 mU3)) * (power10 mQ3))) +
      ((((#576 * logQ3U3) * logU3Q3) * (pow8 mU3)) * (power10 mQ3))) - (((#19200 * logU3mq) * (pow8 mU3)) *
      (power10 mQ3))) + ((((#5760 * logQ3U3) * logU3mq) * (pow8 mU3)) * (power10 mQ3))) + (((#283008 * (pow2
      lmQ3MR)) * (pow8 mU3)) * (power10 mQ3))) - ((((#50496 * logQ3U3) * (pow2 lmQ3MR)) * (pow8 mU3)) *
      (power10 mQ3))) - (((#17100 * (pow2 logQ3mq)) * (pow8 mU3)) * (power10 mQ3))) + ((((#5130 * logQ3U3) *
      (pow2 logQ3mq)) * (pow8 mU3)) * (power10 mQ3))) + (((#3426 * (pow2 logQ3U3)) * (pow8 mU3)) * (power10
      mQ3))) + ((((#100800 * lmQ3MR) * (pow2 logQ3U3)) * (pow8 mU3)) * (power10 mQ3))) + ((((#2220 * logQ3mq)
      * (pow2 logQ3U3)) * (pow8 mU3)) * (power10 mQ3))) - (((#68127 * (pow3 logQ3U3)) * (pow8 mU3)) *
      (power10 mQ3))) - (((#46080 * (pow4 mQ3)) * (pow4 msq)) * (power10 mU3))) + ((((#1800 * (Li2 (#1 -
      (msq2 / mU32)))) * (pow4 mQ3)) * (pow4 msq)) * (power10 mU3))) + ((((#19080 * (Li2 (#1 - (mU32 /
      msq2)))) * (pow4 mQ3)) * (pow4 msq)) * (power10 mU3))) + ((((#46080 * logQ3mq) * (pow4 mQ3)) * (pow4
      msq)) * (power10 mU3))) - ((((#34560 * logQ3U3) * (pow4 mQ3)) * (pow4 msq)) * (power10 mU3))) +
      (((((#540 * (Li2 (#1 - (msq2 / mU32)))) * logQ3U3) * (pow4 mQ3)) * (pow4 msq)) * (power10 mU3))) -
      (((((#19620 * (Li2 (#1 - (mU32 / msq2)))) * logQ3U3) * (pow4 mQ3)) * (pow4 msq)) * (power10 mU3))) +
      (((((#3960 * logQ3mq) * logQ3U3) * (pow4 mQ3)) * (pow4 msq)) * (power10 mU3))) + ((((#9540 * (pow2
      logQ3mq)) * (pow4 mQ3)) * (pow4 msq)) * (power10 mU3))) - (((((#9810 * logQ3U3) * (pow2 logQ3mq)) *
      (pow4 mQ3)) * (pow4 msq)) * (power10 mU3))) + ((((#3780 * (pow2 logQ3U3)) * (pow4 mQ3)) * (pow4 msq)) *
      (power10 mU3))) - (((((#540 * logQ3mq) * (pow2 logQ3U3)) * (pow4 mQ3)) * (pow4 msq)) * (power10 mU3)))
      + ((((#270 * (pow3 logQ3U3)) * (pow4 mQ3)) * (pow4 msq)) * (power10 mU3))) + (((#1805120 * msq2) *
      (pow6 mQ3)) * (power10 mU3))) + ((((#603008 * lmQ3MR) * msq2) * (pow6 mQ3)) * (power10 mU3))) +
      ((((#18000 * msq2) * (Li2 (#1 - (msq2 / mU32)))) * (pow6 mQ3)) * (power10 mU3))) + ((((#425916 * msq2)
      * (Li2 (#1 - (mU32 / mQ32)))) * (pow6 mQ3)) * (power10 mU3))) - (((((#107520 * lmQ3MR) * msq2) * (Li2
      (#1 - (mU32 / mQ32)))) * (pow6 mQ3)) * (power10 mU3))) - ((((#160560 * msq2) * (Li2 (#1 - (mU32 /
      msq2)))) * (pow6 mQ3)) * (power10 mU3))) - ((((#312960 * msq2) * logQ3mq) * (pow6 mQ3)) * (power10
      mU3))) + (((((#19200 * msq2) * (Li2 (#1 - (mU32 / mQ32)))) * logQ3mq) * (pow6 mQ3)) * (power10 mU3))) -
      ((((#818208 * msq2) * logQ3U3) * (pow6 mQ3)) * (power10 mU3))) + (((((#1234112 * lmQ3MR) * msq2) *
      logQ3U3) * (pow6 mQ3)) * (power10 mU3))) + (((((#1800 * msq2) * (Li2 (#1 - (msq2 / mU32)))) * logQ3U3)
      * (pow6 mQ3)) * (power10 mU3))) - (((((#91098 * msq2) * (Li2 (#1 - (mU32 / mQ32)))) * logQ3U3) * (pow6
      mQ3)) * (power10 mU3))) - (((((#6840 * msq2) * (Li2 (#1 - (mU32 / msq2)))) * logQ3U3) * (pow6 mQ3)) *
      (power10 mU3))) - (((((#36240 * msq2) * logQ3mq) * logQ3U3) * (pow6 mQ3)) * (power10 mU3))) +
      ((((((#23040 * lmQ3MR) * msq2) * logQ3mq) * logQ3U3) * (pow6 mQ3)) * (power10 mU3))) + ((((#768 * msq2)
      * logU3Q3) * (pow6 mQ3)) * (power10 mU3))) + (((((#768 * msq2) * logQ3U3) * logU3Q3) * (pow6 mQ3)) *
      (power10 mU3))) - ((((#480000 * msq2) * (pow2 lmQ3MR)) * (pow6 mQ3)) * (power10 mU3))) - (((((#177024 *
      msq2) * logQ3U3) * (pow2 lmQ3MR)) * (pow6 mQ3)) * (power10 mU3))) - ((((#22680 * msq2) * (pow2
      logQ3mq)) * (pow6 mQ3)) * (power10 mU3))) + (((((#2340 * msq2) * logQ3U3) * (pow2 logQ3mq)) * (pow6
      mQ3)) * (power10 mU3))) - ((((#646682 * msq2) * (pow2 logQ3U3)) * (pow6 mQ3)) * (power10 mU3))) +
      (((((#206016 * lmQ3MR) * msq2) * (pow2 logQ3U3)) * (pow6 mQ3)) * (power10 mU3))) - (((((#11400 * msq2)
      * logQ3mq) * (pow2 logQ3U3)) * (pow6 mQ3)) * (power10 mU3))) - ((((#125385 * msq2) * (pow3 logQ3U3)) *
      (pow6 mQ3)) * (power10 mU3))) - ((((#360 * mQ32) * (Li2 (#1 - (msq2 / mU32)))) * (pow6 msq)) * (power10
      mU3))) + ((((#16920 * mQ32) * (Li2 (#1 - (mU32 / msq2)))) * (pow6 msq)) * (power10 mU3))) - (((((#180 *
      mQ32) * (Li2 (#1 - (msq2 / mU32)))) * logQ3U3) * (pow6 msq)) * (power10 mU3))) + (((((#8460 * mQ32) *
      (Li2 (#1 - (mU32 / msq2)))) * logQ3U3) * (pow6 msq)) * (power10 mU3))) + (((((#360 * mQ32) * logQ3mq) *
      logQ3U3) * (pow6 msq)) * (power10 mU3))) + ((((#8460 * mQ32) * (pow2 logQ3mq)) * (pow6 msq)) * (power10
      mU3))) + (((((#4230 * mQ32) * logQ3U3) * (pow2 logQ3mq)) * (pow6 msq)) * (power10 mU3))) - ((((#180 *
      mQ32) * (pow2 logQ3U3)) * (pow6 msq)) * (power10 mU3))) + (((((#180 * mQ32) * logQ3mq) * (pow2
      logQ3U3)) * (pow6 msq)) * (power10 mU3))) - ((((#90 * mQ32) * (pow3 logQ3U3)) * (pow6 msq)) * (power10
      mU3))) + ((#1433792 * (pow8 mQ3)) * (power10 mU3))) + (((#812288 * lmQ3MR) * (pow8 mQ3)) * (power10
      mU3))) + (((#10800 * (Li2 (#1 - (msq2 / mU32)))) * (pow8 mQ3)) * (power10 mU3))) + (((#250452 * (Li2
      (#1 - (mU32 / mQ32)))) * (pow8 mQ3)) * (power10 mU3))) - ((((#107520 * lmQ3MR) * (Li2 (#1 - (mU32 /
      mQ32)))) * (pow8 mQ3)) * (power10 mU3))) - (((#75600 * (Li2 (#1 - (mU32 / msq2)))) * (pow8 mQ3)) *
      (power10 mU3))) - (((#353280 * logQ3mq) * (pow8 mQ3)) * (power10 mU3))) + ((((#9600 * lmQ3MR) *
      logQ3mq) * (pow8 mQ3)) * (power10 mU3))) + ((((#19200 * (Li2 (#1 - (mU32 / mQ32)))) * logQ3mq) * (pow8
      mQ3)) * (power10 mU3))) - (((#1237792 * logQ3U3) * (pow8 mQ3)) * (power10 mU3))) + ((((#969088 *
      lmQ3MR) * logQ3U3) * (pow8 mQ3)) * (power10 mU3))) - ((((#1080 * (Li2 (#1 - (msq2 / mU32)))) * logQ3U3)
      * (pow8 mQ3)) * (power10 mU3))) - ((((#115674 * (Li2 (#1 - (mU32 / mQ32)))) * logQ3U3) * (pow8 mQ3)) *
      (power10 mU3))) + ((((#19080 * (Li2 (#1 - (mU32 / msq2)))) * logQ3U3) * (pow8 mQ3)) * (power10 mU3))) +
      ((((#34320 * logQ3mq) * logQ3U3) * (pow8 mQ3)) * (power10 mU3))) + (((((#15360 * lmQ3MR) * logQ3mq) *
      logQ3U3) * (pow8 mQ3)) * (power10 mU3))) + (((#3072 * logU3Q3) * (pow8 mQ3)) * (power10 mU3))) +
      ((((#384 * logQ3U3) * logU3Q3) * (pow8 mQ3)) * (power10 mU3))) + (((#38400 * logU3mq) * (pow8 mQ3)) *
      (power10 mU3))) - ((((#3840 * logQ3U3) * logU3mq) * (pow8 mQ3)) * (power10 mU3))) - (((#533760 * (pow2
      lmQ3MR)) * (pow8 mQ3)) * (power10 mU3))) - ((((#38016 * logQ3U3) * (pow2 lmQ3MR)) * (pow8 mQ3)) *
      (power10 mU3))) + (((#19800 * (pow2 logQ3mq)) * (pow8 mQ3)) * (power10 mU3))) + ((((#3780 * logQ3U3) *
      (pow2 logQ3mq)) * (pow8 mQ3)) * (power10 mU3))) - (((#364510 * (pow2 logQ3U3)) * (pow8 mQ3)) * (power10
      mU3))) - ((((#63552 * lmQ3MR) * (pow2 logQ3U3)) * (pow8 mQ3)) * (power10 mU3))) - ((((#16200 * logQ3mq)
      * (pow2 logQ3U3)) * (pow8 mQ3)) * (power10 mU3))) + (((#58647 * (pow3 logQ3U3)) * (pow8 mQ3)) *
      (power10 mU3)))) / ((((#36 * mQ32) * ((- msq2) + mU32)) * (pow4 mU3)) * (pow7 (mQ32 - mU32))).
Lemma xtt_UM_poly (Li2 : R -> R) (mQ32 mU32 mQ3 mU3 msq2 msq Xt4 Xt5 Xt6 lmQ3MR : R) : xtt_UM Li2 mQ32 mU32 mQ3 mU3 msq2 msq Xt4 Xt5 Xt6 lmQ3MR = (xtt_UM_6 Li2 mQ32 mU32 mQ3 mU3 msq2 msq lmQ3MR * Xt6 + xtt_UM_5 Li2 mQ32 mU32 mQ3 mU3 msq2 msq lmQ3MR * Xt5 + xtt_UM_4 Li2 mQ32 mU32 mQ3 mU3 msq2 msq lmQ3MR * Xt4)%R.
Proof. unfold xtt_UM, xtt_UM_6, xtt_UM_5, xtt_UM_4.  unR. unfold Rdiv. first [ring|unfold pow5, pow4, pow3, pow2; unR; ring]. Qed.

Definition xtt_QUM_6 (Li2 : R -> R) (mQ32 mQ3 msq2 msq lmQ3MR : R) : R :=
    let logQ3mq := nlog (mQ32 / msq2) in
    let logmqQ3 := - logQ3mq in
    (#160 * #1) / (#9 * (pow6 mQ3)).
Definition xtt_QUM_5 (Li2 : R -> R) (mQ32 mQ3 msq2 msq lmQ3MR : R) : R :=
    let logQ3mq := nlog (mQ32 / msq2) in
    let logmqQ3 := - logQ3mq in
    - ((#1 * ((((((((((((((((((#2176 * msq2) * (pow4 mQ3)) - (((#11264 * lmQ3MR) * msq2) * (pow4 mQ3))) -
      (((#3744 * msq2) * logQ3mq) * (pow4 mQ3))) + (((#2016 * msq2) * logmqQ3) * (pow4 mQ3))) + (((#2331 *
      msq2) * (pow2 logQ3mq)) * (pow4 mQ3))) - (((#47232 * mQ32) * logQ3mq) * (pow4 msq))) - (((#47232 *
      mQ32) * logmqQ3) * (pow4 msq))) + (((#14085 * mQ32) * (pow2 logQ3mq)) * (pow4 msq))) - (#2176 * (pow6
      mQ3))) + ((#11264 * lmQ3MR) * (pow6 mQ3))) - ((#1920 * logQ3mq) * (pow6 mQ3))) - ((#1449 * (pow2
      logQ3mq)) * (pow6 mQ3))) + ((#52896 * logQ3mq) * (pow6 msq))) + ((#52896 * logmqQ3) * (pow6 msq))) -
      ((#14967 * (pow2 logQ3mq)) * (pow6 msq))) - ((#18 * (Li2 (#1 - (mQ32 / msq2)))) * (((((#(-259) * msq2)
      * (pow4 mQ3)) - ((#1565 * mQ32) * (pow4 msq))) + (#161 * (pow6 mQ3))) + (#1663 * (pow6 msq))))) - ((#18
      * (Li2 (#1 - (msq2 / mQ32)))) * (((((#(-259) * msq2) * (pow4 mQ3)) - ((#1565 * mQ32) * (pow4 msq))) +
      (#161 * (pow6 mQ3))) + (#1663 * (pow6 msq)))))) / ((#216 * (mQ32 - msq2)) * (pow9 mQ3))).
Definition xtt_QUM_4 (Li2 : R -> R) (mQ32 mQ3 msq2 msq lmQ3MR : R) : R :=
    let logQ3mq := nlog (mQ32 / msq2) in
    let logmqQ3 := - logQ3mq in
    (#1 * ((((((((((((((((((((((#10990 * msq2) * (pow4 mQ3)) - (((#296 * lmQ3MR) * msq2) * (pow4 mQ3))) -
      (((#2724 * msq2) * logQ3mq) * (pow4 mQ3))) - ((((#480 * lmQ3MR) * msq2) * logQ3mq) * (pow4 mQ3))) -
      (((#1044 * msq2) * logmqQ3) * (pow4 mQ3))) - (((#312 * msq2) * (pow2 lmQ3MR)) * (pow4 mQ3))) + (((#612
      * msq2) * (pow2 logQ3mq)) * (pow4 mQ3))) - (((#432 * mQ32) * logQ3mq) * (pow4 msq))) - (((#432 * mQ32)
      * logmqQ3) * (pow4 msq))) + (((#279 * mQ32) * (pow2 logQ3mq)) * (pow4 msq))) - (#10990 * (pow6 mQ3))) +
      ((#296 * lmQ3MR) * (pow6 mQ3))) + ((#1200 * logQ3mq) * (pow6 mQ3))) + (((#480 * lmQ3MR) * logQ3mq) *
      (pow6 mQ3))) + ((#312 * (pow2 lmQ3MR)) * (pow6 mQ3))) - ((#81 * (pow2 logQ3mq)) * (pow6 mQ3))) + ((#18
      * (Li2 (#1 - (mQ32 / msq2)))) * (((((#28 * msq2) * (pow4 mQ3)) + ((#31 * mQ32) * (pow4 msq))) + (#31 *
      (pow6 mQ3))) - (#90 * (pow6 msq))))) + ((#2676 * logQ3mq) * (pow6 msq))) + ((#2676 * logmqQ3) * (pow6
      msq))) - ((#810 * (pow2 logQ3mq)) * (pow6 msq))) - ((#18 * (Li2 (#1 - (msq2 / mQ32)))) * (((((#(-68) *
      msq2) * (pow4 mQ3)) - ((#31 * mQ32) * (pow4 msq))) + (#9 * (pow6 mQ3))) + (#90 * (pow6 msq)))))) /
      ((#27 * (mQ32 - msq2)) * (pow8 mQ3)).
Lemma xtt_QUM_poly (Li2 : R -> R) (mQ32 mQ3 msq2 msq Xt4 Xt5 Xt6 lmQ3MR : R) : xtt_QUM Li2 mQ32 mQ3 msq2 msq Xt4 Xt5 Xt6 lmQ3MR = (xtt_QUM_6 Li2 mQ32 mQ3 msq2 msq lmQ3MR * Xt6 + xtt_QUM_5 Li2 mQ32 mQ3 msq2 msq lmQ3MR * Xt5 + xtt_QUM_4 Li2 mQ32 mQ3 msq2 msq lmQ3MR * Xt4)%R.
Proof. unfold xtt_QUM, xtt_QUM_6, xtt_QUM_5, xtt_QUM_4.  unR. unfold Rdiv. first [ring|unfold pow5, pow4, pow3, pow2; unR; ring]. Qed.

Definition xtt_D_6 (mQ3 lmQ3MR : R) : R :=
    (#160 / (#9 * (pow6 mQ3))) * #1.
Definition xtt_D_5 (mQ3 lmQ3MR : R) : R :=
    ((#(-176) * (#(-7) + (#8 * lmQ3MR))) * #1) / (#27 * (pow5 mQ3)).
Definition xtt_D_4 (mQ3 lmQ3MR : R) : R :=
    ((#2 * #1) * ((#(-5735) + (#148 * lmQ3MR)) + (#156 * (pow2 lmQ3MR)))) / (#27 * (pow4 mQ3)).
Lemma xtt_D_poly (mQ3 Xt4 Xt5 Xt6 lmQ3MR : R) : xtt_D mQ3 Xt4 Xt5 Xt6 lmQ3MR = (xtt_D_6 mQ3 lmQ3MR * Xt6 + xtt_D_5 mQ3 lmQ3MR * Xt5 + xtt_D_4 mQ3 lmQ3MR * Xt4)%R.
Proof. unfold xtt_D, xtt_D_6, xtt_D_5, xtt_D_4.  unR. unfold Rdiv. first [ring|unfold pow5, pow4, pow3, pow2; unR; ring]. Qed.

