(** * Real dilogarithm and Clausen function
    GENERATED by tools/gen_loopfun.py from source/himalaya/misc/Li2.cpp, statement by statement.
    The complex overload of dilog (Li2.cpp:57ff) is not modelled. *)
From Coq Require Import ZArith Bool.
From Verif Require Import Num.

Section Dilog.
  Context {T : Type} {N : Num T}.
  Open Scope num_scope.

  (** source/himalaya/misc/Li2.cpp:69-137.
      [P_i], [Q_i] are the elements of the local arrays P, Q. *)
  Definition dilog (x : T) : T :=
    let PI := ndec 31415926535897932 16 in
    let P_0 := ndec 9999999999999999502 19 in
    let P_1 := - ndec 2688392681856542343 18 in
    let P_2 := ndec 26477222699473109692 19 in
    let P_3 := - ndec 11538559607887416355 19 in
    let P_4 := ndec 20886077795020607837 20 in
    let P_5 := - ndec 10859777134152463084 21 in
    let Q_0 := #1 in
    let Q_1 := - ndec 29383926818565635485 19 in
    let Q_2 := ndec 32712093293018635389 19 in
    let Q_3 := - ndec 17076702173954289421 19 in
    let Q_4 := ndec 41596017228400603836 20 in
    let Q_5 := - ndec 39801343754084482956 21 in
    let Q_6 := ndec 82743668974466659035 23 in
    let y := #0 in
    let r := #0 in
    let s := #1 in
    let k1 y r s :=
      let y2 := y * y in
      let y4 := y2 * y2 in
      let p := P_0 + y * P_1 + y2 * (P_2 + y * P_3) + y4 * (P_4 + y * P_5) in
      let q := Q_0 + y * Q_1 + y2 * (Q_2 + y * Q_3) + y4 * (Q_4 + y * Q_5 + y2 * Q_6) in
      r + s * y * p / q in
    if x <? #(-1) then
      let l := nlog (#1 - x) in
      let y := #1 / (#1 - x) in
      let r := - PI * PI / #6 + l * (ndec 5 1 * l - nlog (- x)) in
      let s := #1 in
      k1 y r s
    else
    if x =? #(-1) then
      - PI * PI / #12
    else
    if x <? #0 then
      let l := nlog1p (- x) in
      let y := x / (x - #1) in
      let r := - ndec 5 1 * l * l in
      let s := #(-1) in
      k1 y r s
    else
      if x =? #0 then
        x
      else
      if x <? ndec 5 1 then
        let y := x in
        let r := #0 in
        let s := #1 in
        k1 y r s
      else
        if x <? #1 then
          let y := #1 - x in
          let r := PI * PI / #6 - nlog x * nlog1p (- x) in
          let s := #(-1) in
          k1 y r s
        else
          if x =? #1 then
            PI * PI / #6
          else
          if x <? #2 then
            let l := nlog x in
            let y := #1 - #1 / x in
            let r := PI * PI / #6 - l * (nlog y + ndec 5 1 * l) in
            let s := #1 in
            k1 y r s
          else
            let l := nlog x in
            let y := #1 / x in
            let r := PI * PI / #3 - ndec 5 1 * l * l in
            let s := #(-1) in
            k1 y r s.

  (** source/himalaya/misc/Li2.cpp:224-293 *)
  Definition clausen_2 (x : T) : T :=
    let PI := ndec 314159265358979324 17 in
    let PI2 := #2 * PI in
    let PIH := PI / #2 in
    let PI28 := PI * PI / #8 in
    let sgn := #1 in
    let '(x, sgn) :=
      if x <? #0 then
        let x := - x in
        let sgn := #(-1) in
        (x, sgn)
      else
        (x, sgn) in
    let x :=
      if x >=? PI2 then
        let x := nfmod x PI2 in
        x
      else
        x in
    let '(x, sgn) :=
      if x >? PI then
        let p0 := ndec 628125 5 in
        let p1 := ndec 19353071795864769253 22 in
        let x := p0 - x + p1 in
        let sgn := - sgn in
        (x, sgn)
      else
        (x, sgn) in
    if x =? #0 then
      x
    else
    if x =? PI then
      #0
    else
    let h := #0 in
    let h :=
      if x <? PIH then
        let P_0 := ndec 13888888888888889 18 in
        let P_1 := - ndec 43286930203743071 20 in
        let P_2 := ndec 32779814789973427 22 in
        let P_3 := - ndec 36001540369575084 25 in
        let Q_0 := #1 in
        let Q_1 := - ndec 36166589746694121 18 in
        let Q_2 := ndec 36015827281202639 20 in
        let Q_3 := - ndec 83646182842184428 23 in
        let y := x * x in
        let y2 := y * y in
        let p := P_0 + y * P_1 + y2 * (P_2 + y * P_3) in
        let q := Q_0 + y * Q_1 + y2 * (Q_2 + y * Q_3) in
        let h := x * (#1 - nlog x + y * p / q) in
        h
      else
        let P_0 := ndec 64005702446195512 17 in
        let P_1 := - ndec 20641655351338783 17 in
        let P_2 := ndec 24175305223497718 18 in
        let P_3 := - ndec 12355955287855728 19 in
        let P_4 := ndec 25649833551291124 21 in
        let P_5 := - ndec 1478382912877332 22 in
        let Q_0 := #1 in
        let Q_1 := - ndec 25299102015666356 17 in
        let Q_2 := ndec 22148751048467057 18 in
        let Q_3 := - ndec 78183920462457496 20 in
        let Q_4 := ndec 9543254219631067 21 in
        let Q_5 := - ndec 18184302880448247 24 in
        let y := PI - x in
        let z := y * y - PI28 in
        let z2 := z * z in
        let z4 := z2 * z2 in
        let p := P_0 + z * P_1 + z2 * (P_2 + z * P_3) + z4 * (P_4 + z * P_5) in
        let q := Q_0 + z * Q_1 + z2 * (Q_2 + z * Q_3) + z4 * (Q_4 + z * Q_5) in
        let h := y * p / q in
        h in
    sgn * h.

End Dilog.
