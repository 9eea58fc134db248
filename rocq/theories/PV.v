(** * Passarino-Veltman functions
    GENERATED by tools/gen_pv.py from source/himalaya/mh2_fo/PV.cpp, statement by statement; the complex
    arithmetic of the general branch of b0 and of fB is written out by hand on pairs (re, im).
    SIMPLIFIED: std::complex division and square root and std::hypot are the textbook formulas (no rescaling
    against overflow), std::atan2 ignores the sign of a zero argument. *)
From Coq Require Import ZArith Bool.
From Verif Require Import Num.

Section PV.
  Context {T : Type} {N : Num T}.
  Open Scope num_scope.

  (** source/himalaya/mh2_fo/PV.cpp:25 *)
  Definition EPSTOL : T := ndec 1 15.

  (** source/himalaya/mh2_fo/PV.cpp:28-31 *)
  Definition sign (x : T) : T := if x >=? #0 then #1 else - #1.

  (** std::hypot, std::complex *)
  Definition hypot (a b : T) : T := nsqrt (a * a + b * b).
  Definition C2 : Type := (T * T)%type.
  Definition cre (x : T) : C2 := (x, #0).
  Definition cadd (a b : C2) : C2 := (fst a + fst b, snd a + snd b).
  Definition csub (a b : C2) : C2 := (fst a - fst b, snd a - snd b).
  Definition cneg (a : C2) : C2 := (- fst a, - snd a).
  Definition cmul (a b : C2) : C2 := (fst a * fst b - snd a * snd b, fst a * snd b + snd a * fst b).
  Definition cscale (r : T) (a : C2) : C2 := (r * fst a, r * snd a).
  Definition cdivr (a : C2) (r : T) : C2 := (fst a / r, snd a / r).
  Definition cdiv (a b : C2) : C2 :=
    let n := fst b * fst b + snd b * snd b in
    ((fst a * fst b + snd a * snd b) / n, (snd a * fst b - fst a * snd b) / n).
  Definition csqrt (a : C2) : C2 :=
    let m := hypot (fst a) (snd a) in
    let re := nsqrt ((m + fst a) / #2) in
    let im := nsqrt ((m - fst a) / #2) in
    (re, if snd a <? #0 then - im else im).
  Definition atan2 (y x : T) : T :=
    if x >? #0 then natan (y / x)
    else if x <? #0 then (if y >=? #0 then natan (y / x) + nconst CPi else natan (y / x) - nconst CPi)
    else if y >? #0 then nconst CPi / #2 else if y <? #0 then - (nconst CPi / #2) else #0.

  (** source/himalaya/mh2_fo/PV.cpp:34-42 *)
  Definition fast_log (z : C2) : C2 :=
    (ndec 5 1 * nlog (fst z * fst z + snd z * snd z), atan2 (snd z) (fst z)).

  (** source/himalaya/mh2_fo/PV.cpp:45-64 *)
  Definition fB (x : C2) : T :=
    let re := fst x in
    let im := snd x in
    if ((nabs re =? #0) || (nabs re =? #1)) && (im =? #0) then #(-1)
    else if nabs (re - #1) <? ndec 1 3 then
      let d := csub x (cre #1) in
      let logd := fast_log d in
      fst (cadd (cre #(-1)) (cmul d (cadd (csub (cre #1) logd) (cmul d (csub (cre (ndec 5 1)) (cdivr d #6))))))
    else if nabs re >? #1000 then
      fst (cadd (csub (cneg (cdiv (cre (ndec 5 1)) x)) (cdiv (cre #1) (cmul (cscale #6 x) x))) (fast_log (cneg x)))
    else
      fst (csub (cadd (cre #(-1)) (fast_log (csub (cre #1) x))) (cmul x (fast_log (csub (cre #1) (cdiv (cre #1) x))))).

  (** source/himalaya/mh2_fo/PV.cpp:172-176: the two values fB(xp), fB(xm) of the general branch of b0 *)
  Definition b0_fB (p2 m12 m22 : T) : T * T :=
    let s := p2 - m22 + m12 in
    let imin := (m12, - EPSTOL * m12) in
    let x := csqrt (csub (cre (pow2 s)) (cscale (#4 * p2) imin)) in
    let xp := cdivr (cadd (cre s) (cscale (sign s) x)) (#2 * p2) in
    let xm := cdiv imin (cscale p2 xp) in
    (fB xp, fB xm).

  (** source/himalaya/mh2_fo/PV.cpp:71-79 *)
  Definition a0 (m2 q2 : T) : T :=
    let m2 := nabs m2 in
    if m2 <? EPSTOL then
      #0
    else
    m2 * (#1 - nlog (m2 / q2)).

  (** source/himalaya/mh2_fo/PV.cpp:91-132 *)
  Definition b0xx (p2 m2 q2 : T) : T :=
    let p2 := nabs p2 in
    let m2 := nabs m2 in
    let q2 := nabs q2 in
    if (p2 <? EPSTOL * q2) && (m2 <? EPSTOL * q2) then
      #0
    else
    if p2 <? ndec 1 3 * m2 then
      let d := p2 / m2 in
      - nlog (m2 / q2) + d * (#1 / #6 + d * (#1 / #60 + d * (#1 / #420 + d * (#1 / #2520 + d * (#1 /
      #13860 + d * (#1 / #72072 + d / #360360))))))
    else
    if p2 <=? #4 * m2 then
      #2 - nlog (m2 / q2) - #2 * nsqrt (#4 * m2 / p2 - #1) * nasin (nsqrt (p2 / (#4 * m2)))
    else
    if p2 <? #100 * m2 then
      let sq := nsqrt (#1 - #4 * m2 / p2) in
      #2 - nlog (m2 / q2) + sq * nlog (p2 * (#1 - sq) / (#2 * m2) - #1)
    else
    if p2 * EPSTOL <? m2 then
      let d := m2 / p2 in
      let logd := nlog d in
      #2 - nlog (p2 / q2) + d * (#2 * (#1 - logd) + d * (#(-1) - #2 * logd + d * (- #10 / #3 - #4 * logd +
      d * (- #59 / #6 - #10 * logd + d * (- #449 / #15 - #28 * logd + d * (- #1417 / #15 - #84 * logd + d
      * (- #32254 / #105 - #264 * logd + d * (- #429697 / #420 - #858 * logd))))))))
    else
    #2 - nlog (p2 / q2).

  (** source/himalaya/mh2_fo/PV.cpp:139-179 *)
  Definition b0 (p2 m12 m22 q2 : T) : T :=
    let p2 := nabs p2 in
    let m12 := nabs m12 in
    let m22 := nabs m22 in
    let q2 := nabs q2 in
    if ((p2 <? EPSTOL * q2) && (m12 <? EPSTOL * q2)) && (m22 <? EPSTOL * q2) then
      #0
    else
    let '(m12, m22) := if m12 >? m22 then (m22, m12) else (m12, m22) in
    if m12 * (#1 + EPSTOL) >? m22 then
      b0xx p2 m12 q2
    else
    if p2 <=? ndec 1 11 * m12 then
      if m12 <? EPSTOL * m22 then
        #1 - nlog (m22 / q2)
      else
      #1 - nlog (m22 / q2) + m12 * nlog (m22 / m12) / (m12 - m22)
    else
    if m12 <? EPSTOL * EPSTOL * m22 then
      let del := hypot (m22 - p2) (EPSTOL * m22) in
      #2 - nlog (m22 / q2) + (m22 - p2) / p2 * nlog (del / p2)
    else
    let '(fp, fm) := b0_fB p2 m12 m22 in
    - nlog (p2 / q2) - fp - fm.

  (** source/himalaya/mh2_fo/PV.cpp:191-211 *)
  Definition d1_b0 (m12 m22 : T) : T :=
    let m12 := nabs m12 in
    let m22 := nabs m22 in
    if xorb (m12 <? ndec 1 14 * m22) (m22 <? ndec 1 14 * m12) then
      (m12 - m22) * (m12 + m22) / (#2 * pow3 (m12 - m22))
    else
    if (m12 <? EPSTOL) && (m22 <? EPSTOL) then
      #0
    else
    if nabs (m22 - m12) <? ndec 5 2 * m12 then
      #1 / (#6 * m12) + (m12 - m22) / (#12 * pow2 m12) + pow2 (m12 - m22) / (#20 * pow3 m12) + pow3 (m12 -
      m22) / (#30 * pow4 m12) + pow4 (m12 - m22) / (#42 * pow5 m12) + pow5 (m12 - m22) / (#56 * pow6 m12)
    else
    ((m12 - m22) * (m12 + m22) + #2 * m12 * m22 * nlog (m22 / m12)) / (#2 * pow3 (m12 - m22)).

End PV.
