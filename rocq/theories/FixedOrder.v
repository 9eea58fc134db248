(** * MSSM_mass_eigenstates: fixed-order Higgs mass
    GENERATED by tools/gen_fo.py from source/himalaya/mh2_fo/MSSM_mass_eigenstates.cpp.  The self-energy sums are translated term by term: [accum] of the list of the
    "se += ..." right-hand sides, in source order.  The switches and loops are written by hand next to their source lines.
    Log output and the stream operator are left out.  NaN is 0/0, which is NaN in binary64 and undefined in NumP; over the
    reals there is no NaN, so nothing is claimed there about the only_at constructor. *)
From Coq Require Import ZArith Bool List String.
From Verif Require Import Num Except Params PV Linalg Spectrum DSZ Mh2EFT.
Import ListNotations.

Inductive Momentum_iteration := mi_off | mi_pert | mi_num.
Inductive Diagonalization := di_pert | di_num.

Section FixedOrder.
  Context {T : Type} {N : Num T}.
  Open Scope num_scope.

  (** Sum.hpp: double s = 0; for (i = 0; i <= fin; i++) s += f(i) *)
  Definition nsum (fin : nat) (f : nat -> T) : T := fold_left (fun s i => s + f i) (seq 0 (S fin)) #0.
  (** double s = 0; s += e1; s += e2; ... *)
  Definition accum (l : list T) : T := fold_left nadd l #0.

  (** A0, B0, D1B0: source/himalaya/mh2_fo/MSSM_mass_eigenstates.cpp:676-689; [q] is pars.scale *)
  Definition A0 (q m2 : T) : T := a0 m2 (pow2 q).
  Definition B0 (q p2 m12 m22 : T) : T := b0 p2 m12 m22 (pow2 q).
  Definition D1B0 (m12 m22 : T) : T := d1_b0 m12 m22.

  (** data members (MSSM_mass_eigenstates.hpp:83-90) *)
  Record ME := mkME { me_pars : Params T; me_masses : Spectrum T; me_gaugeless : Spectrum T; me_orders : cord -> Z;
    me_mom_it : Momentum_iteration; me_precision : T; me_max_iterations : Z; me_diag : Diagonalization }.

  (** source/himalaya/mh2_fo/MSSM_mass_eigenstates.cpp:199-329, the terms added to se11 *)
  Definition d1_se11 (pars : Params T) (masses : Spectrum T) (p2 : T) : list T :=
    let q := scale pars in
    let g1 := g1 pars in
    let g2 := g2 pars in
    let yt := a22 (Yu pars) in
    let yb := a22 (Yd pars) in
    let ytau := a22 (Ye pars) in
    let vu := vu pars in
    let vd := vd pars in
    let mu := mu pars in
    let Ab := a22 (Ad pars) in
    let Atau := a22 (Ae pars) in
    let M2VWm := M2VWm masses in
    let M2VZ := M2VZ masses in
    let MFb := MFb masses in
    let MFtau := MFtau masses in
    let M2SveL := M2SveL masses in
    let M2SvmL := M2SvmL masses in
    let M2SvtL := M2SvtL masses in
    let M2Su := M2Su masses in
    let M2Sd := M2Sd masses in
    let M2Sc := M2Sc masses in
    let M2Ss := M2Ss masses in
    let M2St := M2St masses in
    let M2Sb := M2Sb masses in
    let M2Se := M2Se masses in
    let M2Sm := M2Sm masses in
    let M2Stau := M2Stau masses in
    let M2hh := M2hh masses in
    let M2Ah := M2Ah masses in
    let M2Hpm := M2Hpm masses in
    let MChi := MChi masses in
    let MCha := MCha masses in
    let ZU := ZU masses in
    let ZD := ZD masses in
    let ZC := ZC masses in
    let ZS := ZS masses in
    let ZT := ZT masses in
    let ZB := ZB masses in
    let ZE := ZE masses in
    let ZM := ZM masses in
    let ZTau := ZTau masses in
    let ZH := ZH masses in
    let ZA := ZA masses in
    let ZP := ZP masses in
    let ZN := ZN masses in
    let UM := UM masses in
    let UP := UP masses in
    [ - (A0 q M2VWm * pow2 g2) / #2
    ; A0 q M2VZ * (#(-3) * pow2 g1 - #5 * pow2 g2) / #20
    ; - (B0 q p2 M2SveL M2SveL * pow2 (vd * (#3 * pow2 g1 + #5 * pow2 g2))) / #400
    ; - (B0 q p2 M2SvmL M2SvmL * pow2 (vd * (#3 * pow2 g1 + #5 * pow2 g2))) / #400
    ; - (B0 q p2 M2SvtL M2SvtL * pow2 (vd * (#3 * pow2 g1 + #5 * pow2 g2))) / #400
    ; #(-7) * B0 q p2 M2VWm M2VWm * pow4 g2 * pow2 vd / #8
    ; #(-7) * B0 q p2 M2VZ M2VZ * pow2 (vd * (#3 * pow2 g1 + #5 * pow2 g2)) / #400
    ; #3 * B0 q p2 (pow2 MFb) (pow2 MFb) * (- p2 + #4 * pow2 MFb) * pow2 yb
    ; B0 q p2 (pow2 MFtau) (pow2 MFtau) * (- p2 + #4 * pow2 MFtau) * pow2 ytau
    ; nsum 1 (fun gI1 : nat => nsum 1 (fun gI2 : nat => - (B0 q p2 (vget M2Ah gI1) (vget M2Ah gI2) * pow2 (vd * (#3
        * pow2 g1 + #5 * pow2 g2) * (mget ZA gI1 0%nat * mget ZA gI2 0%nat - mget ZA gI1 1%nat * mget ZA gI2 1%nat)))
        / #800))
    ; nsum 1 (fun gI1 : nat => nsum 1 (fun gI2 : nat => #(-3) * B0 q p2 (vget M2Sc gI1) (vget M2Sc gI2) * pow2 (vd *
        ((pow2 g1 - #5 * pow2 g2) * mget ZC gI1 0%nat * mget ZC gI2 0%nat - #4 * pow2 g1 * mget ZC gI1 1%nat * mget ZC
        gI2 1%nat)) / #400))
    ; nsum 1 (fun gI1 : nat => nsum 1 (fun gI2 : nat => #(-3) * B0 q p2 (vget M2Sd gI1) (vget M2Sd gI2) * pow2 (vd *
        ((pow2 g1 + #5 * pow2 g2) * mget ZD gI1 0%nat * mget ZD gI2 0%nat + #2 * pow2 g1 * mget ZD gI1 1%nat * mget ZD
        gI2 1%nat)) / #400))
    ; nsum 1 (fun gI1 : nat => nsum 1 (fun gI2 : nat => - (B0 q p2 (vget M2Se gI1) (vget M2Se gI2) * pow2 (vd * ((#3
        * pow2 g1 - #5 * pow2 g2) * mget ZE gI1 0%nat * mget ZE gI2 0%nat - #6 * pow2 g1 * mget ZE gI1 1%nat * mget ZE
        gI2 1%nat))) / #400))
    ; nsum 1 (fun gI1 : nat => nsum 1 (fun gI2 : nat => - (B0 q p2 (vget M2Sm gI1) (vget M2Sm gI2) * pow2 (vd * ((#3
        * pow2 g1 - #5 * pow2 g2) * mget ZM gI1 0%nat * mget ZM gI2 0%nat - #6 * pow2 g1 * mget ZM gI1 1%nat * mget ZM
        gI2 1%nat))) / #400))
    ; nsum 1 (fun gI1 : nat => nsum 1 (fun gI2 : nat => #(-3) * B0 q p2 (vget M2Ss gI1) (vget M2Ss gI2) * pow2 (vd *
        ((pow2 g1 + #5 * pow2 g2) * mget ZS gI1 0%nat * mget ZS gI2 0%nat + #2 * pow2 g1 * mget ZS gI1 1%nat * mget ZS
        gI2 1%nat)) / #400))
    ; nsum 1 (fun gI1 : nat => nsum 1 (fun gI2 : nat => #(-3) * B0 q p2 (vget M2Su gI1) (vget M2Su gI2) * pow2 (vd *
        ((pow2 g1 - #5 * pow2 g2) * mget ZU gI1 0%nat * mget ZU gI2 0%nat - #4 * pow2 g1 * mget ZU gI1 1%nat * mget ZU
        gI2 1%nat)) / #400))
    ; nsum 1 (fun gI1 : nat => nsum 1 (fun gI2 : nat => pow2 g2 * (A0 q (pow2 (vget MCha gI1)) + A0 q (pow2 (vget
        MCha gI2)) + B0 q p2 (pow2 (vget MCha gI1)) (pow2 (vget MCha gI2)) * (- p2 + pow2 (vget MCha gI1) + pow2 (vget
        MCha gI2))) * (pow2 (mget UM gI2 1%nat * mget UP gI1 0%nat) + pow2 (mget UM gI1 1%nat * mget UP gI2 0%nat)) /
        #2) + vget MCha gI1 * (nsum 1 (fun gI2 : nat => #2 * B0 q p2 (pow2 (vget MCha gI1)) (pow2 (vget MCha gI2)) *
        vget MCha gI2 * pow2 g2 * mget UM gI1 1%nat * mget UM gI2 1%nat * mget UP gI1 0%nat * mget UP gI2 0%nat) - #2
        * g2 * nconst Csqrt2 * A0 q (pow2 (vget MCha gI1)) * mget UM gI1 1%nat * mget UP gI1 0%nat / vd))
    ; nsum 1 (fun gI1 : nat => nsum 1 (fun gI2 : nat => #(-3) * B0 q p2 (vget M2Sb gI1) (vget M2Sb gI2) * pow2 (mget
        ZB gI1 0%nat * (vd * (pow2 g1 + #5 * pow2 g2 - #20 * pow2 yb) * mget ZB gI2 0%nat - #10 * Ab * nconst Csqrt2 *
        yb * mget ZB gI2 1%nat) + #2 * mget ZB gI1 1%nat * (#(-5) * Ab * nconst Csqrt2 * yb * mget ZB gI2 0%nat + vd *
        (pow2 g1 - #10 * pow2 yb) * mget ZB gI2 1%nat)) / #400) + #3 * Ab * nconst Csqrt2 * yb * A0 q (vget M2Sb gI1)
        * mget ZB gI1 0%nat * mget ZB gI1 1%nat / vd)
    ; nsum 1 (fun gI1 : nat => - (nsum 1 (fun gI2 : nat => vd * B0 q p2 (vget M2hh gI1) (vget M2hh gI2) * pow2 ((#3
        * pow2 g1 + #5 * pow2 g2) * (mget ZH gI1 1%nat * (vu * mget ZH gI2 0%nat + vd * mget ZH gI2 1%nat) + mget ZH
        gI1 0%nat * (#(-3) * vd * mget ZH gI2 0%nat + vu * mget ZH gI2 1%nat))) / #40) + vu * A0 q (vget M2hh gI1) *
        (#3 * pow2 g1 + #5 * pow2 g2) * mget ZH gI1 0%nat * mget ZH gI1 1%nat) / (#20 * vd))
    ; nsum 1 (fun gI1 : nat => nsum 1 (fun gI2 : nat => - (B0 q p2 (vget M2Hpm gI1) (vget M2Hpm gI2) * pow2 (mget ZP
        gI1 0%nat * (vd * (#3 * pow2 g1 + #5 * pow2 g2) * mget ZP gI2 0%nat + #5 * vu * pow2 g2 * mget ZP gI2 1%nat) +
        mget ZP gI1 1%nat * (#5 * vu * pow2 g2 * mget ZP gI2 0%nat + vd * (#(-3) * pow2 g1 + #5 * pow2 g2) * mget ZP
        gI2 1%nat))) / #400) + vu * A0 q (vget M2Hpm gI1) * pow2 g2 * mget ZP gI1 0%nat * mget ZP gI1 1%nat / (#2 *
        vd))
    ; nsum 1 (fun gI1 : nat => #(-3) * (nsum 1 (fun gI2 : nat => vd * B0 q p2 (vget M2St gI1) (vget M2St gI2) * pow2
        (mget ZT gI1 0%nat * (vd * (pow2 g1 - #5 * pow2 g2) * mget ZT gI2 0%nat + #10 * mu * nconst Csqrt2 * yt * mget
        ZT gI2 1%nat) + #2 * mget ZT gI1 1%nat * (#5 * mu * nconst Csqrt2 * yt * mget ZT gI2 0%nat - #2 * vd * pow2 g1
        * mget ZT gI2 1%nat)) / #400) + mu * nconst Csqrt2 * yt * A0 q (vget M2St gI1) * mget ZT gI1 0%nat * mget ZT
        gI1 1%nat) / vd)
    ; nsum 1 (fun gI1 : nat => nsum 1 (fun gI2 : nat => - (B0 q p2 (vget M2Stau gI1) (vget M2Stau gI2) * pow2 (mget
        ZTau gI1 0%nat * (vd * (#3 * pow2 g1 - #5 * pow2 g2 + #20 * pow2 ytau) * mget ZTau gI2 0%nat + #10 * Atau *
        nconst Csqrt2 * ytau * mget ZTau gI2 1%nat) + #2 * mget ZTau gI1 1%nat * (#5 * Atau * nconst Csqrt2 * ytau *
        mget ZTau gI2 0%nat + vd * (#(-3) * pow2 g1 + #10 * pow2 ytau) * mget ZTau gI2 1%nat))) / #400) + Atau *
        nconst Csqrt2 * ytau * A0 q (vget M2Stau gI1) * mget ZTau gI1 0%nat * mget ZTau gI1 1%nat / vd)
    ; nsum 3 (fun gI1 : nat => nsum 3 (fun gI2 : nat => (A0 q (pow2 (MChi gI1)) + A0 q (pow2 (MChi gI2)) + B0 q p2
        (pow2 (MChi gI1)) (pow2 (MChi gI2)) * (- p2 + #2 * MChi gI1 * MChi gI2 + pow2 (MChi gI1) + pow2 (MChi gI2))) *
        pow2 (ZN gI1 2%nat * (g1 * nconst Csqrt15 * ZN gI2 0%nat - #5 * g2 * ZN gI2 1%nat) + (g1 * nconst Csqrt15 * ZN
        gI1 0%nat - #5 * g2 * ZN gI1 1%nat) * ZN gI2 2%nat) / #100) + #2 * A0 q (pow2 (MChi gI1)) * MChi gI1 * (g1 *
        nconst Csqrt15 * ZN gI1 0%nat - #5 * g2 * ZN gI1 1%nat) * ZN gI1 2%nat / (#5 * vd))
    ; nsum 1 (fun gI2 : nat => (#2 * A0 q M2VZ - A0 q (vget M2Ah gI2) + B0 q p2 M2VZ (vget M2Ah gI2) * (- M2VZ + #2
        * p2 + #2 * vget M2Ah gI2)) * (#3 * pow2 g1 + #5 * pow2 g2) * pow2 (mget ZA gI2 0%nat) / #20)
    ; nsum 1 (fun gI2 : nat => (#2 * A0 q M2VWm - A0 q (vget M2Hpm gI2) + B0 q p2 M2VWm (vget M2Hpm gI2) * (- M2VWm
        + #2 * p2 + #2 * vget M2Hpm gI2)) * pow2 (g2 * mget ZP gI2 0%nat) / #2) ].

  (** source/himalaya/mh2_fo/MSSM_mass_eigenstates.cpp:199-329, the terms added to se12 *)
  Definition d1_se12 (pars : Params T) (masses : Spectrum T) (p2 : T) : list T :=
    let q := scale pars in
    let g1 := g1 pars in
    let g2 := g2 pars in
    let yt := a22 (Yu pars) in
    let yb := a22 (Yd pars) in
    let ytau := a22 (Ye pars) in
    let vu := vu pars in
    let vd := vd pars in
    let mu := mu pars in
    let At := a22 (Au pars) in
    let Ab := a22 (Ad pars) in
    let Atau := a22 (Ae pars) in
    let M2VWm := M2VWm masses in
    let M2VZ := M2VZ masses in
    let M2SveL := M2SveL masses in
    let M2SvmL := M2SvmL masses in
    let M2SvtL := M2SvtL masses in
    let M2Su := M2Su masses in
    let M2Sd := M2Sd masses in
    let M2Sc := M2Sc masses in
    let M2Ss := M2Ss masses in
    let M2St := M2St masses in
    let M2Sb := M2Sb masses in
    let M2Se := M2Se masses in
    let M2Sm := M2Sm masses in
    let M2Stau := M2Stau masses in
    let M2hh := M2hh masses in
    let M2Ah := M2Ah masses in
    let M2Hpm := M2Hpm masses in
    let MChi := MChi masses in
    let MCha := MCha masses in
    let ZU := ZU masses in
    let ZD := ZD masses in
    let ZC := ZC masses in
    let ZS := ZS masses in
    let ZT := ZT masses in
    let ZB := ZB masses in
    let ZE := ZE masses in
    let ZM := ZM masses in
    let ZTau := ZTau masses in
    let ZH := ZH masses in
    let ZA := ZA masses in
    let ZP := ZP masses in
    let ZN := ZN masses in
    let UM := UM masses in
    let UP := UP masses in
    [ vd * vu * B0 q p2 M2SveL M2SveL * pow2 (#3 * pow2 g1 + #5 * pow2 g2) / #400
    ; vd * vu * B0 q p2 M2SvmL M2SvmL * pow2 (#3 * pow2 g1 + #5 * pow2 g2) / #400
    ; vd * vu * B0 q p2 M2SvtL M2SvtL * pow2 (#3 * pow2 g1 + #5 * pow2 g2) / #400
    ; #(-7) * vd * vu * B0 q p2 M2VWm M2VWm * pow4 g2 / #8
    ; #(-7) * vd * vu * B0 q p2 M2VZ M2VZ * pow2 (#3 * pow2 g1 + #5 * pow2 g2) / #400
    ; nsum 1 (fun gI1 : nat => nsum 1 (fun gI2 : nat => pow2 g2 * (#2 * B0 q p2 (pow2 (vget MCha gI1)) (pow2 (vget
        MCha gI2)) * vget MCha gI1 * vget MCha gI2 * (mget UM gI1 1%nat * mget UM gI2 0%nat * mget UP gI1 1%nat * mget
        UP gI2 0%nat + mget UM gI1 0%nat * mget UM gI2 1%nat * mget UP gI1 0%nat * mget UP gI2 1%nat) + (A0 q (pow2
        (vget MCha gI1)) + A0 q (pow2 (vget MCha gI2)) + B0 q p2 (pow2 (vget MCha gI1)) (pow2 (vget MCha gI2)) * (- p2
        + pow2 (vget MCha gI1) + pow2 (vget MCha gI2))) * (mget UM gI2 0%nat * mget UM gI2 1%nat * mget UP gI1 0%nat *
        mget UP gI1 1%nat + mget UM gI1 0%nat * mget UM gI1 1%nat * mget UP gI2 0%nat * mget UP gI2 1%nat)) / #2))
    ; nsum 1 (fun gI1 : nat => nsum 1 (fun gI2 : nat => vd * vu * B0 q p2 (vget M2Ah gI1) (vget M2Ah gI2) * pow2
        ((#3 * pow2 g1 + #5 * pow2 g2) * (mget ZA gI1 0%nat * mget ZA gI2 0%nat - mget ZA gI1 1%nat * mget ZA gI2
        1%nat)) / #800))
    ; nsum 1 (fun gI1 : nat => nsum 1 (fun gI2 : nat => #3 * B0 q p2 (vget M2Sb gI1) (vget M2Sb gI2) * (mget ZB gI1
        0%nat * (vu * (pow2 g1 + #5 * pow2 g2) * mget ZB gI2 0%nat - #10 * mu * nconst Csqrt2 * yb * mget ZB gI2
        1%nat) + #2 * mget ZB gI1 1%nat * (#(-5) * mu * nconst Csqrt2 * yb * mget ZB gI2 0%nat + vu * pow2 g1 * mget
        ZB gI2 1%nat)) * (mget ZB gI1 0%nat * (vd * (pow2 g1 + #5 * pow2 g2 - #20 * pow2 yb) * mget ZB gI2 0%nat - #10
        * Ab * nconst Csqrt2 * yb * mget ZB gI2 1%nat) + #2 * mget ZB gI1 1%nat * (#(-5) * Ab * nconst Csqrt2 * yb *
        mget ZB gI2 0%nat + vd * (pow2 g1 - #10 * pow2 yb) * mget ZB gI2 1%nat)) / #400))
    ; nsum 1 (fun gI1 : nat => nsum 1 (fun gI2 : nat => #3 * vd * vu * B0 q p2 (vget M2Sc gI1) (vget M2Sc gI2) *
        pow2 ((pow2 g1 - #5 * pow2 g2) * mget ZC gI1 0%nat * mget ZC gI2 0%nat - #4 * pow2 g1 * mget ZC gI1 1%nat *
        mget ZC gI2 1%nat) / #400))
    ; nsum 1 (fun gI1 : nat => nsum 1 (fun gI2 : nat => #3 * vd * vu * B0 q p2 (vget M2Sd gI1) (vget M2Sd gI2) *
        pow2 ((pow2 g1 + #5 * pow2 g2) * mget ZD gI1 0%nat * mget ZD gI2 0%nat + #2 * pow2 g1 * mget ZD gI1 1%nat *
        mget ZD gI2 1%nat) / #400))
    ; nsum 1 (fun gI1 : nat => nsum 1 (fun gI2 : nat => vd * vu * B0 q p2 (vget M2Se gI1) (vget M2Se gI2) * pow2
        ((#3 * pow2 g1 - #5 * pow2 g2) * mget ZE gI1 0%nat * mget ZE gI2 0%nat - #6 * pow2 g1 * mget ZE gI1 1%nat *
        mget ZE gI2 1%nat) / #400))
    ; nsum 1 (fun gI1 : nat => nsum 1 (fun gI2 : nat => vd * vu * B0 q p2 (vget M2Sm gI1) (vget M2Sm gI2) * pow2
        ((#3 * pow2 g1 - #5 * pow2 g2) * mget ZM gI1 0%nat * mget ZM gI2 0%nat - #6 * pow2 g1 * mget ZM gI1 1%nat *
        mget ZM gI2 1%nat) / #400))
    ; nsum 1 (fun gI1 : nat => nsum 1 (fun gI2 : nat => #3 * vd * vu * B0 q p2 (vget M2Ss gI1) (vget M2Ss gI2) *
        pow2 ((pow2 g1 + #5 * pow2 g2) * mget ZS gI1 0%nat * mget ZS gI2 0%nat + #2 * pow2 g1 * mget ZS gI1 1%nat *
        mget ZS gI2 1%nat) / #400))
    ; nsum 1 (fun gI1 : nat => nsum 1 (fun gI2 : nat => #3 * B0 q p2 (vget M2St gI1) (vget M2St gI2) * (mget ZT gI1
        0%nat * (vd * (pow2 g1 - #5 * pow2 g2) * mget ZT gI2 0%nat + #10 * mu * nconst Csqrt2 * yt * mget ZT gI2
        1%nat) + #2 * mget ZT gI1 1%nat * (#5 * mu * nconst Csqrt2 * yt * mget ZT gI2 0%nat - #2 * vd * pow2 g1 * mget
        ZT gI2 1%nat)) * (mget ZT gI1 0%nat * (vu * (pow2 g1 - #5 * pow2 g2 + #20 * pow2 yt) * mget ZT gI2 0%nat + #10
        * At * nconst Csqrt2 * yt * mget ZT gI2 1%nat) + #2 * mget ZT gI1 1%nat * (#5 * At * nconst Csqrt2 * yt * mget
        ZT gI2 0%nat - #2 * vu * (pow2 g1 - #5 * pow2 yt) * mget ZT gI2 1%nat)) / #400))
    ; nsum 1 (fun gI1 : nat => nsum 1 (fun gI2 : nat => B0 q p2 (vget M2Stau gI1) (vget M2Stau gI2) * (mget ZTau gI1
        0%nat * (vu * (#3 * pow2 g1 - #5 * pow2 g2) * mget ZTau gI2 0%nat + #10 * mu * nconst Csqrt2 * ytau * mget
        ZTau gI2 1%nat) + #2 * mget ZTau gI1 1%nat * (#5 * mu * nconst Csqrt2 * ytau * mget ZTau gI2 0%nat - #3 * vu *
        pow2 g1 * mget ZTau gI2 1%nat)) * (mget ZTau gI1 0%nat * (vd * (#3 * pow2 g1 - #5 * pow2 g2 + #20 * pow2 ytau)
        * mget ZTau gI2 0%nat + #10 * Atau * nconst Csqrt2 * ytau * mget ZTau gI2 1%nat) + #2 * mget ZTau gI1 1%nat *
        (#5 * Atau * nconst Csqrt2 * ytau * mget ZTau gI2 0%nat + vd * (#(-3) * pow2 g1 + #10 * pow2 ytau) * mget ZTau
        gI2 1%nat)) / #400))
    ; nsum 1 (fun gI1 : nat => nsum 1 (fun gI2 : nat => #3 * vd * vu * B0 q p2 (vget M2Su gI1) (vget M2Su gI2) *
        pow2 ((pow2 g1 - #5 * pow2 g2) * mget ZU gI1 0%nat * mget ZU gI2 0%nat - #4 * pow2 g1 * mget ZU gI1 1%nat *
        mget ZU gI2 1%nat) / #400))
    ; nsum 1 (fun gI1 : nat => nsum 1 (fun gI2 : nat => - (B0 q p2 (vget M2hh gI1) (vget M2hh gI2) * pow2 (#3 * pow2
        g1 + #5 * pow2 g2) * (mget ZH gI1 0%nat * (vu * mget ZH gI2 0%nat + vd * mget ZH gI2 1%nat) + mget ZH gI1
        1%nat * (vd * mget ZH gI2 0%nat - #3 * vu * mget ZH gI2 1%nat)) * (mget ZH gI1 1%nat * (vu * mget ZH gI2 0%nat
        + vd * mget ZH gI2 1%nat) + mget ZH gI1 0%nat * (#(-3) * vd * mget ZH gI2 0%nat + vu * mget ZH gI2 1%nat))) /
        #800) + A0 q (vget M2hh gI1) * (#3 * pow2 g1 + #5 * pow2 g2) * mget ZH gI1 0%nat * mget ZH gI1 1%nat / #20)
    ; nsum 1 (fun gI1 : nat => nsum 1 (fun gI2 : nat => - (B0 q p2 (vget M2Hpm gI1) (vget M2Hpm gI2) * (mget ZP gI1
        0%nat * (vd * (#3 * pow2 g1 + #5 * pow2 g2) * mget ZP gI2 0%nat + #5 * vu * pow2 g2 * mget ZP gI2 1%nat) +
        mget ZP gI1 1%nat * (#5 * vu * pow2 g2 * mget ZP gI2 0%nat + vd * (#(-3) * pow2 g1 + #5 * pow2 g2) * mget ZP
        gI2 1%nat)) * (mget ZP gI1 0%nat * ((#(-3) * vu * pow2 g1 + #5 * vu * pow2 g2) * mget ZP gI2 0%nat + #5 * vd *
        pow2 g2 * mget ZP gI2 1%nat) + mget ZP gI1 1%nat * (#5 * vd * pow2 g2 * mget ZP gI2 0%nat + vu * (#3 * pow2 g1
        + #5 * pow2 g2) * mget ZP gI2 1%nat))) / #400) - A0 q (vget M2Hpm gI1) * pow2 g2 * mget ZP gI1 0%nat * mget ZP
        gI1 1%nat / #2)
    ; nsum 3 (fun gI1 : nat => nsum 3 (fun gI2 : nat => - ((A0 q (pow2 (MChi gI1)) + A0 q (pow2 (MChi gI2)) + B0 q
        p2 (pow2 (MChi gI1)) (pow2 (MChi gI2)) * (- p2 + #2 * MChi gI1 * MChi gI2 + pow2 (MChi gI1) + pow2 (MChi
        gI2))) * (ZN gI1 2%nat * (g1 * nconst Csqrt15 * ZN gI2 0%nat - #5 * g2 * ZN gI2 1%nat) + (g1 * nconst Csqrt15
        * ZN gI1 0%nat - #5 * g2 * ZN gI1 1%nat) * ZN gI2 2%nat) * (ZN gI1 3%nat * (g1 * nconst Csqrt15 * ZN gI2 0%nat
        - #5 * g2 * ZN gI2 1%nat) + (g1 * nconst Csqrt15 * ZN gI1 0%nat - #5 * g2 * ZN gI1 1%nat) * ZN gI2 3%nat)) /
        #100))
    ; nsum 1 (fun gI2 : nat => - ((#2 * A0 q M2VZ - A0 q (vget M2Ah gI2) + B0 q p2 M2VZ (vget M2Ah gI2) * (- M2VZ +
        #2 * p2 + #2 * vget M2Ah gI2)) * (#3 * pow2 g1 + #5 * pow2 g2) * mget ZA gI2 0%nat * mget ZA gI2 1%nat) / #20)
    ; nsum 1 (fun gI2 : nat => - ((#2 * A0 q M2VWm - A0 q (vget M2Hpm gI2) + B0 q p2 M2VWm (vget M2Hpm gI2) * (-
        M2VWm + #2 * p2 + #2 * vget M2Hpm gI2)) * pow2 g2 * mget ZP gI2 0%nat * mget ZP gI2 1%nat) / #2) ].

  (** source/himalaya/mh2_fo/MSSM_mass_eigenstates.cpp:199-329, the terms added to se22 *)
  Definition d1_se22 (pars : Params T) (masses : Spectrum T) (p2 : T) : list T :=
    let q := scale pars in
    let g1 := g1 pars in
    let g2 := g2 pars in
    let yt := a22 (Yu pars) in
    let yb := a22 (Yd pars) in
    let ytau := a22 (Ye pars) in
    let vu := vu pars in
    let vd := vd pars in
    let mu := mu pars in
    let At := a22 (Au pars) in
    let M2VWm := M2VWm masses in
    let M2VZ := M2VZ masses in
    let MFt := MFt masses in
    let M2SveL := M2SveL masses in
    let M2SvmL := M2SvmL masses in
    let M2SvtL := M2SvtL masses in
    let M2Su := M2Su masses in
    let M2Sd := M2Sd masses in
    let M2Sc := M2Sc masses in
    let M2Ss := M2Ss masses in
    let M2St := M2St masses in
    let M2Sb := M2Sb masses in
    let M2Se := M2Se masses in
    let M2Sm := M2Sm masses in
    let M2Stau := M2Stau masses in
    let M2hh := M2hh masses in
    let M2Ah := M2Ah masses in
    let M2Hpm := M2Hpm masses in
    let MChi := MChi masses in
    let MCha := MCha masses in
    let ZU := ZU masses in
    let ZD := ZD masses in
    let ZC := ZC masses in
    let ZS := ZS masses in
    let ZT := ZT masses in
    let ZB := ZB masses in
    let ZE := ZE masses in
    let ZM := ZM masses in
    let ZTau := ZTau masses in
    let ZH := ZH masses in
    let ZA := ZA masses in
    let ZP := ZP masses in
    let ZN := ZN masses in
    let UM := UM masses in
    let UP := UP masses in
    [ - (A0 q M2VWm * pow2 g2) / #2
    ; A0 q M2VZ * (#(-3) * pow2 g1 - #5 * pow2 g2) / #20
    ; - (B0 q p2 M2SveL M2SveL * pow2 (vu * (#3 * pow2 g1 + #5 * pow2 g2))) / #400
    ; - (B0 q p2 M2SvmL M2SvmL * pow2 (vu * (#3 * pow2 g1 + #5 * pow2 g2))) / #400
    ; - (B0 q p2 M2SvtL M2SvtL * pow2 (vu * (#3 * pow2 g1 + #5 * pow2 g2))) / #400
    ; #(-7) * B0 q p2 M2VWm M2VWm * pow4 g2 * pow2 vu / #8
    ; #(-7) * B0 q p2 M2VZ M2VZ * pow2 (vu * (#3 * pow2 g1 + #5 * pow2 g2)) / #400
    ; #3 * B0 q p2 (pow2 MFt) (pow2 MFt) * (- p2 + #4 * pow2 MFt) * pow2 yt
    ; nsum 1 (fun gI1 : nat => nsum 1 (fun gI2 : nat => - (B0 q p2 (vget M2Ah gI1) (vget M2Ah gI2) * pow2 (vu * (#3
        * pow2 g1 + #5 * pow2 g2) * (mget ZA gI1 0%nat * mget ZA gI2 0%nat - mget ZA gI1 1%nat * mget ZA gI2 1%nat)))
        / #800))
    ; nsum 1 (fun gI1 : nat => nsum 1 (fun gI2 : nat => #(-3) * B0 q p2 (vget M2Sc gI1) (vget M2Sc gI2) * pow2 (vu *
        ((pow2 g1 - #5 * pow2 g2) * mget ZC gI1 0%nat * mget ZC gI2 0%nat - #4 * pow2 g1 * mget ZC gI1 1%nat * mget ZC
        gI2 1%nat)) / #400))
    ; nsum 1 (fun gI1 : nat => nsum 1 (fun gI2 : nat => #(-3) * B0 q p2 (vget M2Sd gI1) (vget M2Sd gI2) * pow2 (vu *
        ((pow2 g1 + #5 * pow2 g2) * mget ZD gI1 0%nat * mget ZD gI2 0%nat + #2 * pow2 g1 * mget ZD gI1 1%nat * mget ZD
        gI2 1%nat)) / #400))
    ; nsum 1 (fun gI1 : nat => nsum 1 (fun gI2 : nat => - (B0 q p2 (vget M2Se gI1) (vget M2Se gI2) * pow2 (vu * ((#3
        * pow2 g1 - #5 * pow2 g2) * mget ZE gI1 0%nat * mget ZE gI2 0%nat - #6 * pow2 g1 * mget ZE gI1 1%nat * mget ZE
        gI2 1%nat))) / #400))
    ; nsum 1 (fun gI1 : nat => nsum 1 (fun gI2 : nat => - (B0 q p2 (vget M2Sm gI1) (vget M2Sm gI2) * pow2 (vu * ((#3
        * pow2 g1 - #5 * pow2 g2) * mget ZM gI1 0%nat * mget ZM gI2 0%nat - #6 * pow2 g1 * mget ZM gI1 1%nat * mget ZM
        gI2 1%nat))) / #400))
    ; nsum 1 (fun gI1 : nat => nsum 1 (fun gI2 : nat => #(-3) * B0 q p2 (vget M2Ss gI1) (vget M2Ss gI2) * pow2 (vu *
        ((pow2 g1 + #5 * pow2 g2) * mget ZS gI1 0%nat * mget ZS gI2 0%nat + #2 * pow2 g1 * mget ZS gI1 1%nat * mget ZS
        gI2 1%nat)) / #400))
    ; nsum 1 (fun gI1 : nat => nsum 1 (fun gI2 : nat => #(-3) * B0 q p2 (vget M2Su gI1) (vget M2Su gI2) * pow2 (vu *
        ((pow2 g1 - #5 * pow2 g2) * mget ZU gI1 0%nat * mget ZU gI2 0%nat - #4 * pow2 g1 * mget ZU gI1 1%nat * mget ZU
        gI2 1%nat)) / #400))
    ; nsum 1 (fun gI1 : nat => nsum 1 (fun gI2 : nat => pow2 g2 * (A0 q (pow2 (vget MCha gI1)) + A0 q (pow2 (vget
        MCha gI2)) + B0 q p2 (pow2 (vget MCha gI1)) (pow2 (vget MCha gI2)) * (- p2 + pow2 (vget MCha gI1) + pow2 (vget
        MCha gI2))) * (pow2 (mget UM gI2 0%nat * mget UP gI1 1%nat) + pow2 (mget UM gI1 0%nat * mget UP gI2 1%nat)) /
        #2) + vget MCha gI1 * (nsum 1 (fun gI2 : nat => #2 * B0 q p2 (pow2 (vget MCha gI1)) (pow2 (vget MCha gI2)) *
        vget MCha gI2 * pow2 g2 * mget UM gI1 0%nat * mget UM gI2 0%nat * mget UP gI1 1%nat * mget UP gI2 1%nat) - #2
        * g2 * nconst Csqrt2 * A0 q (pow2 (vget MCha gI1)) * mget UM gI1 0%nat * mget UP gI1 1%nat / vu))
    ; nsum 1 (fun gI1 : nat => #(-3) * (nsum 1 (fun gI2 : nat => vu * B0 q p2 (vget M2Sb gI1) (vget M2Sb gI2) * pow2
        (mget ZB gI1 0%nat * (vu * (pow2 g1 + #5 * pow2 g2) * mget ZB gI2 0%nat - #10 * mu * nconst Csqrt2 * yb * mget
        ZB gI2 1%nat) + #2 * mget ZB gI1 1%nat * (#(-5) * mu * nconst Csqrt2 * yb * mget ZB gI2 0%nat + vu * pow2 g1 *
        mget ZB gI2 1%nat)) / #400) + mu * nconst Csqrt2 * yb * A0 q (vget M2Sb gI1) * mget ZB gI1 0%nat * mget ZB gI1
        1%nat) / vu)
    ; nsum 1 (fun gI1 : nat => - (nsum 1 (fun gI2 : nat => vu * B0 q p2 (vget M2hh gI1) (vget M2hh gI2) * pow2 ((#3
        * pow2 g1 + #5 * pow2 g2) * (mget ZH gI1 0%nat * (vu * mget ZH gI2 0%nat + vd * mget ZH gI2 1%nat) + mget ZH
        gI1 1%nat * (vd * mget ZH gI2 0%nat - #3 * vu * mget ZH gI2 1%nat))) / #40) + vd * A0 q (vget M2hh gI1) * (#3
        * pow2 g1 + #5 * pow2 g2) * mget ZH gI1 0%nat * mget ZH gI1 1%nat) / (#20 * vu))
    ; nsum 1 (fun gI1 : nat => nsum 1 (fun gI2 : nat => - (B0 q p2 (vget M2Hpm gI1) (vget M2Hpm gI2) * pow2 (mget ZP
        gI1 0%nat * (vu * (#3 * pow2 g1 - #5 * pow2 g2) * mget ZP gI2 0%nat - #5 * vd * pow2 g2 * mget ZP gI2 1%nat) -
        mget ZP gI1 1%nat * (#5 * vd * pow2 g2 * mget ZP gI2 0%nat + vu * (#3 * pow2 g1 + #5 * pow2 g2) * mget ZP gI2
        1%nat))) / #400) + vd * A0 q (vget M2Hpm gI1) * pow2 g2 * mget ZP gI1 0%nat * mget ZP gI1 1%nat / (#2 * vu))
    ; nsum 1 (fun gI1 : nat => nsum 1 (fun gI2 : nat => #(-3) * B0 q p2 (vget M2St gI1) (vget M2St gI2) * pow2 (mget
        ZT gI1 0%nat * (vu * (pow2 g1 - #5 * pow2 g2 + #20 * pow2 yt) * mget ZT gI2 0%nat + #10 * At * nconst Csqrt2 *
        yt * mget ZT gI2 1%nat) + #2 * mget ZT gI1 1%nat * (#5 * At * nconst Csqrt2 * yt * mget ZT gI2 0%nat - #2 * vu
        * (pow2 g1 - #5 * pow2 yt) * mget ZT gI2 1%nat)) / #400) + #3 * At * nconst Csqrt2 * yt * A0 q (vget M2St gI1)
        * mget ZT gI1 0%nat * mget ZT gI1 1%nat / vu)
    ; nsum 1 (fun gI1 : nat => - ((nsum 1 (fun gI2 : nat => vu * B0 q p2 (vget M2Stau gI1) (vget M2Stau gI2) * pow2
        (mget ZTau gI1 0%nat * (vu * (#3 * pow2 g1 - #5 * pow2 g2) * mget ZTau gI2 0%nat + #10 * mu * nconst Csqrt2 *
        ytau * mget ZTau gI2 1%nat) + #2 * mget ZTau gI1 1%nat * (#5 * mu * nconst Csqrt2 * ytau * mget ZTau gI2 0%nat
        - #3 * vu * pow2 g1 * mget ZTau gI2 1%nat)) / #400) + mu * nconst Csqrt2 * ytau * A0 q (vget M2Stau gI1) *
        mget ZTau gI1 0%nat * mget ZTau gI1 1%nat) / vu))
    ; nsum 3 (fun gI1 : nat => nsum 3 (fun gI2 : nat => (A0 q (pow2 (MChi gI1)) + A0 q (pow2 (MChi gI2)) + B0 q p2
        (pow2 (MChi gI1)) (pow2 (MChi gI2)) * (- p2 + #2 * MChi gI1 * MChi gI2 + pow2 (MChi gI1) + pow2 (MChi gI2))) *
        pow2 (ZN gI1 3%nat * (g1 * nconst Csqrt15 * ZN gI2 0%nat - #5 * g2 * ZN gI2 1%nat) + (g1 * nconst Csqrt15 * ZN
        gI1 0%nat - #5 * g2 * ZN gI1 1%nat) * ZN gI2 3%nat) / #100) - #2 * A0 q (pow2 (MChi gI1)) * MChi gI1 * (g1 *
        nconst Csqrt15 * ZN gI1 0%nat - #5 * g2 * ZN gI1 1%nat) * ZN gI1 3%nat / (#5 * vu))
    ; nsum 1 (fun gI2 : nat => (#2 * A0 q M2VZ - A0 q (vget M2Ah gI2) + B0 q p2 M2VZ (vget M2Ah gI2) * (- M2VZ + #2
        * p2 + #2 * vget M2Ah gI2)) * (#3 * pow2 g1 + #5 * pow2 g2) * pow2 (mget ZA gI2 1%nat) / #20)
    ; nsum 1 (fun gI2 : nat => (#2 * A0 q M2VWm - A0 q (vget M2Hpm gI2) + B0 q p2 M2VWm (vget M2Hpm gI2) * (- M2VWm
        + #2 * p2 + #2 * vget M2Hpm gI2)) * pow2 (g2 * mget ZP gI2 1%nat) / #2) ].

  (** source/himalaya/mh2_fo/MSSM_mass_eigenstates.cpp:340-412, the terms added to se11 *)
  Definition gl_se11 (pars : Params T) (masses : Spectrum T) (orders : cord -> Z) : list T :=
    let q := scale pars in
    let yt := a22 (Yu pars) in
    let yb := if (orders ONLY_AT_AS =? 1)%Z then #0 else a22 (Yd pars) in
    let ytau := if (orders ONLY_AT_AS =? 1)%Z then #0 else a22 (Ye pars) in
    let vd := vd pars in
    let mu := mu pars in
    let Ab := a22 (Ad pars) in
    let Atau := a22 (Ae pars) in
    let MFb := MFb masses in
    let MFtau := MFtau masses in
    let M2St := M2St masses in
    let M2Sb := M2Sb masses in
    let M2Stau := M2Stau masses in
    let ZT := ZT masses in
    let ZB := ZB masses in
    let ZTau := ZTau masses in
    [ #12 * B0 q #0 (pow2 MFb) (pow2 MFb) * pow2 (MFb * yb)
    ; #4 * B0 q #0 (pow2 MFtau) (pow2 MFtau) * pow2 (MFtau * ytau)
    ; #3 * Ab * nconst Csqrt2 * yb * A0 q (vget M2Sb 0%nat) * mget ZB 0%nat 0%nat * mget ZB 0%nat 1%nat / vd
    ; #(-6) * B0 q #0 (vget M2Sb 0%nat) (vget M2Sb 0%nat) * pow2 (yb * (MFb * (pow2 (mget ZB 0%nat 0%nat) + pow2
        (mget ZB 0%nat 1%nat)) + Ab * mget ZB 0%nat 0%nat * mget ZB 0%nat 1%nat))
    ; #3 * Ab * nconst Csqrt2 * yb * A0 q (vget M2Sb 1%nat) * mget ZB 1%nat 0%nat * mget ZB 1%nat 1%nat / vd
    ; #(-3) * B0 q #0 (vget M2Sb 0%nat) (vget M2Sb 1%nat) * pow2 (yb * (#2 * MFb * mget ZB 0%nat 0%nat * mget ZB
        1%nat 0%nat + Ab * mget ZB 0%nat 1%nat * mget ZB 1%nat 0%nat + Ab * mget ZB 0%nat 0%nat * mget ZB 1%nat 1%nat
        + #2 * MFb * mget ZB 0%nat 1%nat * mget ZB 1%nat 1%nat))
    ; #(-6) * B0 q #0 (vget M2Sb 1%nat) (vget M2Sb 1%nat) * pow2 (yb * (MFb * (pow2 (mget ZB 1%nat 0%nat) + pow2
        (mget ZB 1%nat 1%nat)) + Ab * mget ZB 1%nat 0%nat * mget ZB 1%nat 1%nat))
    ; #(-3) * mu * nconst Csqrt2 * yt * A0 q (vget M2St 0%nat) * mget ZT 0%nat 0%nat * mget ZT 0%nat 1%nat / vd
    ; #(-6) * B0 q #0 (vget M2St 0%nat) (vget M2St 0%nat) * pow2 (mu * yt * mget ZT 0%nat 0%nat * mget ZT 0%nat
        1%nat)
    ; #(-3) * mu * nconst Csqrt2 * yt * A0 q (vget M2St 1%nat) * mget ZT 1%nat 0%nat * mget ZT 1%nat 1%nat / vd
    ; #(-6) * B0 q #0 (vget M2St 1%nat) (vget M2St 1%nat) * pow2 (mu * yt * mget ZT 1%nat 0%nat * mget ZT 1%nat
        1%nat)
    ; #(-3) * B0 q #0 (vget M2St 0%nat) (vget M2St 1%nat) * pow2 (mu * yt * (mget ZT 0%nat 1%nat * mget ZT 1%nat
        0%nat + mget ZT 0%nat 0%nat * mget ZT 1%nat 1%nat))
    ; Atau * nconst Csqrt2 * ytau * A0 q (vget M2Stau 0%nat) * mget ZTau 0%nat 0%nat * mget ZTau 0%nat 1%nat / vd
    ; #(-2) * B0 q #0 (vget M2Stau 0%nat) (vget M2Stau 0%nat) * pow2 (ytau * (MFtau * (pow2 (mget ZTau 0%nat 0%nat)
        + pow2 (mget ZTau 0%nat 1%nat)) + Atau * mget ZTau 0%nat 0%nat * mget ZTau 0%nat 1%nat))
    ; Atau * nconst Csqrt2 * ytau * A0 q (vget M2Stau 1%nat) * mget ZTau 1%nat 0%nat * mget ZTau 1%nat 1%nat / vd
    ; - (B0 q #0 (vget M2Stau 0%nat) (vget M2Stau 1%nat) * pow2 (ytau * (#2 * MFtau * mget ZTau 0%nat 0%nat * mget
        ZTau 1%nat 0%nat + Atau * mget ZTau 0%nat 1%nat * mget ZTau 1%nat 0%nat + Atau * mget ZTau 0%nat 0%nat * mget
        ZTau 1%nat 1%nat + #2 * MFtau * mget ZTau 0%nat 1%nat * mget ZTau 1%nat 1%nat)))
    ; #(-2) * B0 q #0 (vget M2Stau 1%nat) (vget M2Stau 1%nat) * pow2 (ytau * (MFtau * (pow2 (mget ZTau 1%nat 0%nat)
        + pow2 (mget ZTau 1%nat 1%nat)) + Atau * mget ZTau 1%nat 0%nat * mget ZTau 1%nat 1%nat)) ].

  (** source/himalaya/mh2_fo/MSSM_mass_eigenstates.cpp:340-412, the terms added to se12 *)
  Definition gl_se12 (pars : Params T) (masses : Spectrum T) (orders : cord -> Z) : list T :=
    let q := scale pars in
    let yt := a22 (Yu pars) in
    let yb := if (orders ONLY_AT_AS =? 1)%Z then #0 else a22 (Yd pars) in
    let ytau := if (orders ONLY_AT_AS =? 1)%Z then #0 else a22 (Ye pars) in
    let mu := mu pars in
    let At := a22 (Au pars) in
    let Ab := a22 (Ad pars) in
    let Atau := a22 (Ae pars) in
    let MFt := MFt masses in
    let MFb := MFb masses in
    let MFtau := MFtau masses in
    let M2St := M2St masses in
    let M2Sb := M2Sb masses in
    let M2Stau := M2Stau masses in
    let ZT := ZT masses in
    let ZB := ZB masses in
    let ZTau := ZTau masses in
    [ #6 * mu * B0 q #0 (vget M2Sb 0%nat) (vget M2Sb 0%nat) * pow2 yb * mget ZB 0%nat 0%nat * mget ZB 0%nat 1%nat *
        (MFb * (pow2 (mget ZB 0%nat 0%nat) + pow2 (mget ZB 0%nat 1%nat)) + Ab * mget ZB 0%nat 0%nat * mget ZB 0%nat
        1%nat)
    ; #3 * mu * B0 q #0 (vget M2Sb 0%nat) (vget M2Sb 1%nat) * pow2 yb * (mget ZB 0%nat 1%nat * mget ZB 1%nat 0%nat +
        mget ZB 0%nat 0%nat * mget ZB 1%nat 1%nat) * (#2 * MFb * mget ZB 0%nat 0%nat * mget ZB 1%nat 0%nat + Ab * mget
        ZB 0%nat 1%nat * mget ZB 1%nat 0%nat + Ab * mget ZB 0%nat 0%nat * mget ZB 1%nat 1%nat + #2 * MFb * mget ZB
        0%nat 1%nat * mget ZB 1%nat 1%nat)
    ; #6 * mu * B0 q #0 (vget M2Sb 1%nat) (vget M2Sb 1%nat) * pow2 yb * mget ZB 1%nat 0%nat * mget ZB 1%nat 1%nat *
        (MFb * (pow2 (mget ZB 1%nat 0%nat) + pow2 (mget ZB 1%nat 1%nat)) + Ab * mget ZB 1%nat 0%nat * mget ZB 1%nat
        1%nat)
    ; #6 * mu * B0 q #0 (vget M2St 0%nat) (vget M2St 0%nat) * pow2 yt * mget ZT 0%nat 0%nat * mget ZT 0%nat 1%nat *
        (MFt * (pow2 (mget ZT 0%nat 0%nat) + pow2 (mget ZT 0%nat 1%nat)) + At * mget ZT 0%nat 0%nat * mget ZT 0%nat
        1%nat)
    ; #3 * mu * B0 q #0 (vget M2St 0%nat) (vget M2St 1%nat) * pow2 yt * (mget ZT 0%nat 1%nat * mget ZT 1%nat 0%nat +
        mget ZT 0%nat 0%nat * mget ZT 1%nat 1%nat) * (#2 * MFt * mget ZT 0%nat 0%nat * mget ZT 1%nat 0%nat + At * mget
        ZT 0%nat 1%nat * mget ZT 1%nat 0%nat + At * mget ZT 0%nat 0%nat * mget ZT 1%nat 1%nat + #2 * MFt * mget ZT
        0%nat 1%nat * mget ZT 1%nat 1%nat)
    ; #6 * mu * B0 q #0 (vget M2St 1%nat) (vget M2St 1%nat) * pow2 yt * mget ZT 1%nat 0%nat * mget ZT 1%nat 1%nat *
        (MFt * (pow2 (mget ZT 1%nat 0%nat) + pow2 (mget ZT 1%nat 1%nat)) + At * mget ZT 1%nat 0%nat * mget ZT 1%nat
        1%nat)
    ; #2 * mu * B0 q #0 (vget M2Stau 0%nat) (vget M2Stau 0%nat) * pow2 ytau * mget ZTau 0%nat 0%nat * mget ZTau
        0%nat 1%nat * (MFtau * (pow2 (mget ZTau 0%nat 0%nat) + pow2 (mget ZTau 0%nat 1%nat)) + Atau * mget ZTau 0%nat
        0%nat * mget ZTau 0%nat 1%nat)
    ; mu * B0 q #0 (vget M2Stau 0%nat) (vget M2Stau 1%nat) * pow2 ytau * (mget ZTau 0%nat 1%nat * mget ZTau 1%nat
        0%nat + mget ZTau 0%nat 0%nat * mget ZTau 1%nat 1%nat) * (#2 * MFtau * mget ZTau 0%nat 0%nat * mget ZTau 1%nat
        0%nat + Atau * mget ZTau 0%nat 1%nat * mget ZTau 1%nat 0%nat + Atau * mget ZTau 0%nat 0%nat * mget ZTau 1%nat
        1%nat + #2 * MFtau * mget ZTau 0%nat 1%nat * mget ZTau 1%nat 1%nat)
    ; #2 * mu * B0 q #0 (vget M2Stau 1%nat) (vget M2Stau 1%nat) * pow2 ytau * mget ZTau 1%nat 0%nat * mget ZTau
        1%nat 1%nat * (MFtau * (pow2 (mget ZTau 1%nat 0%nat) + pow2 (mget ZTau 1%nat 1%nat)) + Atau * mget ZTau 1%nat
        0%nat * mget ZTau 1%nat 1%nat) ].

  (** source/himalaya/mh2_fo/MSSM_mass_eigenstates.cpp:340-412, the terms added to se22 *)
  Definition gl_se22 (pars : Params T) (masses : Spectrum T) (orders : cord -> Z) : list T :=
    let q := scale pars in
    let yt := a22 (Yu pars) in
    let yb := if (orders ONLY_AT_AS =? 1)%Z then #0 else a22 (Yd pars) in
    let ytau := if (orders ONLY_AT_AS =? 1)%Z then #0 else a22 (Ye pars) in
    let vu := vu pars in
    let mu := mu pars in
    let At := a22 (Au pars) in
    let MFt := MFt masses in
    let M2St := M2St masses in
    let M2Sb := M2Sb masses in
    let M2Stau := M2Stau masses in
    let ZT := ZT masses in
    let ZB := ZB masses in
    let ZTau := ZTau masses in
    [ #12 * B0 q #0 (pow2 MFt) (pow2 MFt) * pow2 (MFt * yt)
    ; #(-3) * mu * nconst Csqrt2 * yb * A0 q (vget M2Sb 0%nat) * mget ZB 0%nat 0%nat * mget ZB 0%nat 1%nat / vu
    ; #(-6) * B0 q #0 (vget M2Sb 0%nat) (vget M2Sb 0%nat) * pow2 (mu * yb * mget ZB 0%nat 0%nat * mget ZB 0%nat
        1%nat)
    ; #(-3) * mu * nconst Csqrt2 * yb * A0 q (vget M2Sb 1%nat) * mget ZB 1%nat 0%nat * mget ZB 1%nat 1%nat / vu
    ; #(-6) * B0 q #0 (vget M2Sb 1%nat) (vget M2Sb 1%nat) * pow2 (mu * yb * mget ZB 1%nat 0%nat * mget ZB 1%nat
        1%nat)
    ; #(-3) * B0 q #0 (vget M2Sb 0%nat) (vget M2Sb 1%nat) * pow2 (mu * yb * (mget ZB 0%nat 1%nat * mget ZB 1%nat
        0%nat + mget ZB 0%nat 0%nat * mget ZB 1%nat 1%nat))
    ; #3 * At * nconst Csqrt2 * yt * A0 q (vget M2St 0%nat) * mget ZT 0%nat 0%nat * mget ZT 0%nat 1%nat / vu
    ; #(-6) * B0 q #0 (vget M2St 0%nat) (vget M2St 0%nat) * pow2 (yt * (MFt * (pow2 (mget ZT 0%nat 0%nat) + pow2
        (mget ZT 0%nat 1%nat)) + At * mget ZT 0%nat 0%nat * mget ZT 0%nat 1%nat))
    ; #3 * At * nconst Csqrt2 * yt * A0 q (vget M2St 1%nat) * mget ZT 1%nat 0%nat * mget ZT 1%nat 1%nat / vu
    ; #(-3) * B0 q #0 (vget M2St 0%nat) (vget M2St 1%nat) * pow2 (yt * (#2 * MFt * mget ZT 0%nat 0%nat * mget ZT
        1%nat 0%nat + At * mget ZT 0%nat 1%nat * mget ZT 1%nat 0%nat + At * mget ZT 0%nat 0%nat * mget ZT 1%nat 1%nat
        + #2 * MFt * mget ZT 0%nat 1%nat * mget ZT 1%nat 1%nat))
    ; #(-6) * B0 q #0 (vget M2St 1%nat) (vget M2St 1%nat) * pow2 (yt * (MFt * (pow2 (mget ZT 1%nat 0%nat) + pow2
        (mget ZT 1%nat 1%nat)) + At * mget ZT 1%nat 0%nat * mget ZT 1%nat 1%nat))
    ; - (mu * nconst Csqrt2 * ytau * A0 q (vget M2Stau 0%nat) * mget ZTau 0%nat 0%nat * mget ZTau 0%nat 1%nat / vu)
    ; #(-2) * B0 q #0 (vget M2Stau 0%nat) (vget M2Stau 0%nat) * pow2 (mu * ytau * mget ZTau 0%nat 0%nat * mget ZTau
        0%nat 1%nat)
    ; - (mu * nconst Csqrt2 * ytau * A0 q (vget M2Stau 1%nat) * mget ZTau 1%nat 0%nat * mget ZTau 1%nat 1%nat / vu)
    ; #(-2) * B0 q #0 (vget M2Stau 1%nat) (vget M2Stau 1%nat) * pow2 (mu * ytau * mget ZTau 1%nat 0%nat * mget ZTau
        1%nat 1%nat)
    ; - (B0 q #0 (vget M2Stau 0%nat) (vget M2Stau 1%nat) * pow2 (mu * ytau * (mget ZTau 0%nat 1%nat * mget ZTau
        1%nat 0%nat + mget ZTau 0%nat 0%nat * mget ZTau 1%nat 1%nat))) ].

  (** source/himalaya/mh2_fo/MSSM_mass_eigenstates.cpp:424-485, the terms added to se11 *)
  Definition gd_se11 (pars : Params T) (masses : Spectrum T) (orders : cord -> Z) : list T :=
    let q := scale pars in
    let yt := a22 (Yu pars) in
    let yb := if (orders ONLY_AT_AS =? 1)%Z then #0 else a22 (Yd pars) in
    let ytau := if (orders ONLY_AT_AS =? 1)%Z then #0 else a22 (Ye pars) in
    let mu := mu pars in
    let Ab := a22 (Ad pars) in
    let Atau := a22 (Ae pars) in
    let MFb := MFb masses in
    let MFtau := MFtau masses in
    let M2St := M2St masses in
    let M2Sb := M2Sb masses in
    let M2Stau := M2Stau masses in
    let ZT := ZT masses in
    let ZB := ZB masses in
    let ZTau := ZTau masses in
    [ #(-3) * B0 q #0 (pow2 MFb) (pow2 MFb) * pow2 yb
    ; - (B0 q #0 (pow2 MFtau) (pow2 MFtau) * pow2 ytau)
    ; #12 * D1B0 (pow2 MFb) (pow2 MFb) * pow2 (MFb * yb)
    ; #4 * D1B0 (pow2 MFtau) (pow2 MFtau) * pow2 (MFtau * ytau)
    ; #(-6) * D1B0 (vget M2Sb 0%nat) (vget M2Sb 0%nat) * pow2 (yb * (MFb * (pow2 (mget ZB 0%nat 0%nat) + pow2 (mget
        ZB 0%nat 1%nat)) + Ab * mget ZB 0%nat 0%nat * mget ZB 0%nat 1%nat))
    ; #(-3) * D1B0 (vget M2Sb 0%nat) (vget M2Sb 1%nat) * pow2 (yb * (#2 * MFb * mget ZB 0%nat 0%nat * mget ZB 1%nat
        0%nat + Ab * mget ZB 0%nat 1%nat * mget ZB 1%nat 0%nat + Ab * mget ZB 0%nat 0%nat * mget ZB 1%nat 1%nat + #2 *
        MFb * mget ZB 0%nat 1%nat * mget ZB 1%nat 1%nat))
    ; #(-6) * D1B0 (vget M2Sb 1%nat) (vget M2Sb 1%nat) * pow2 (yb * (MFb * (pow2 (mget ZB 1%nat 0%nat) + pow2 (mget
        ZB 1%nat 1%nat)) + Ab * mget ZB 1%nat 0%nat * mget ZB 1%nat 1%nat))
    ; #(-6) * D1B0 (vget M2St 0%nat) (vget M2St 0%nat) * pow2 (mu * yt * mget ZT 0%nat 0%nat * mget ZT 0%nat 1%nat)
    ; #(-6) * D1B0 (vget M2St 1%nat) (vget M2St 1%nat) * pow2 (mu * yt * mget ZT 1%nat 0%nat * mget ZT 1%nat 1%nat)
    ; #(-3) * D1B0 (vget M2St 0%nat) (vget M2St 1%nat) * pow2 (mu * yt * (mget ZT 0%nat 1%nat * mget ZT 1%nat 0%nat
        + mget ZT 0%nat 0%nat * mget ZT 1%nat 1%nat))
    ; #(-2) * D1B0 (vget M2Stau 0%nat) (vget M2Stau 0%nat) * pow2 (ytau * (MFtau * (pow2 (mget ZTau 0%nat 0%nat) +
        pow2 (mget ZTau 0%nat 1%nat)) + Atau * mget ZTau 0%nat 0%nat * mget ZTau 0%nat 1%nat))
    ; - (D1B0 (vget M2Stau 0%nat) (vget M2Stau 1%nat) * pow2 (ytau * (#2 * MFtau * mget ZTau 0%nat 0%nat * mget ZTau
        1%nat 0%nat + Atau * mget ZTau 0%nat 1%nat * mget ZTau 1%nat 0%nat + Atau * mget ZTau 0%nat 0%nat * mget ZTau
        1%nat 1%nat + #2 * MFtau * mget ZTau 0%nat 1%nat * mget ZTau 1%nat 1%nat)))
    ; #(-2) * D1B0 (vget M2Stau 1%nat) (vget M2Stau 1%nat) * pow2 (ytau * (MFtau * (pow2 (mget ZTau 1%nat 0%nat) +
        pow2 (mget ZTau 1%nat 1%nat)) + Atau * mget ZTau 1%nat 0%nat * mget ZTau 1%nat 1%nat)) ].

  (** source/himalaya/mh2_fo/MSSM_mass_eigenstates.cpp:424-485, the terms added to se12 *)
  Definition gd_se12 (pars : Params T) (masses : Spectrum T) (orders : cord -> Z) : list T :=
    let yt := a22 (Yu pars) in
    let yb := if (orders ONLY_AT_AS =? 1)%Z then #0 else a22 (Yd pars) in
    let ytau := if (orders ONLY_AT_AS =? 1)%Z then #0 else a22 (Ye pars) in
    let mu := mu pars in
    let At := a22 (Au pars) in
    let Ab := a22 (Ad pars) in
    let Atau := a22 (Ae pars) in
    let MFt := MFt masses in
    let MFb := MFb masses in
    let MFtau := MFtau masses in
    let M2St := M2St masses in
    let M2Sb := M2Sb masses in
    let M2Stau := M2Stau masses in
    let ZT := ZT masses in
    let ZB := ZB masses in
    let ZTau := ZTau masses in
    [ #6 * mu * D1B0 (vget M2Sb 0%nat) (vget M2Sb 0%nat) * pow2 yb * mget ZB 0%nat 0%nat * mget ZB 0%nat 1%nat *
        (MFb * (pow2 (mget ZB 0%nat 0%nat) + pow2 (mget ZB 0%nat 1%nat)) + Ab * mget ZB 0%nat 0%nat * mget ZB 0%nat
        1%nat)
    ; #3 * mu * D1B0 (vget M2Sb 0%nat) (vget M2Sb 1%nat) * pow2 yb * (mget ZB 0%nat 1%nat * mget ZB 1%nat 0%nat +
        mget ZB 0%nat 0%nat * mget ZB 1%nat 1%nat) * (#2 * MFb * mget ZB 0%nat 0%nat * mget ZB 1%nat 0%nat + Ab * mget
        ZB 0%nat 1%nat * mget ZB 1%nat 0%nat + Ab * mget ZB 0%nat 0%nat * mget ZB 1%nat 1%nat + #2 * MFb * mget ZB
        0%nat 1%nat * mget ZB 1%nat 1%nat)
    ; #6 * mu * D1B0 (vget M2Sb 1%nat) (vget M2Sb 1%nat) * pow2 yb * mget ZB 1%nat 0%nat * mget ZB 1%nat 1%nat *
        (MFb * (pow2 (mget ZB 1%nat 0%nat) + pow2 (mget ZB 1%nat 1%nat)) + Ab * mget ZB 1%nat 0%nat * mget ZB 1%nat
        1%nat)
    ; #6 * mu * D1B0 (vget M2St 0%nat) (vget M2St 0%nat) * pow2 yt * mget ZT 0%nat 0%nat * mget ZT 0%nat 1%nat *
        (MFt * (pow2 (mget ZT 0%nat 0%nat) + pow2 (mget ZT 0%nat 1%nat)) + At * mget ZT 0%nat 0%nat * mget ZT 0%nat
        1%nat)
    ; #3 * mu * D1B0 (vget M2St 0%nat) (vget M2St 1%nat) * pow2 yt * (mget ZT 0%nat 1%nat * mget ZT 1%nat 0%nat +
        mget ZT 0%nat 0%nat * mget ZT 1%nat 1%nat) * (#2 * MFt * mget ZT 0%nat 0%nat * mget ZT 1%nat 0%nat + At * mget
        ZT 0%nat 1%nat * mget ZT 1%nat 0%nat + At * mget ZT 0%nat 0%nat * mget ZT 1%nat 1%nat + #2 * MFt * mget ZT
        0%nat 1%nat * mget ZT 1%nat 1%nat)
    ; #6 * mu * D1B0 (vget M2St 1%nat) (vget M2St 1%nat) * pow2 yt * mget ZT 1%nat 0%nat * mget ZT 1%nat 1%nat *
        (MFt * (pow2 (mget ZT 1%nat 0%nat) + pow2 (mget ZT 1%nat 1%nat)) + At * mget ZT 1%nat 0%nat * mget ZT 1%nat
        1%nat)
    ; #2 * mu * D1B0 (vget M2Stau 0%nat) (vget M2Stau 0%nat) * pow2 ytau * mget ZTau 0%nat 0%nat * mget ZTau 0%nat
        1%nat * (MFtau * (pow2 (mget ZTau 0%nat 0%nat) + pow2 (mget ZTau 0%nat 1%nat)) + Atau * mget ZTau 0%nat 0%nat
        * mget ZTau 0%nat 1%nat)
    ; mu * D1B0 (vget M2Stau 0%nat) (vget M2Stau 1%nat) * pow2 ytau * (mget ZTau 0%nat 1%nat * mget ZTau 1%nat 0%nat
        + mget ZTau 0%nat 0%nat * mget ZTau 1%nat 1%nat) * (#2 * MFtau * mget ZTau 0%nat 0%nat * mget ZTau 1%nat 0%nat
        + Atau * mget ZTau 0%nat 1%nat * mget ZTau 1%nat 0%nat + Atau * mget ZTau 0%nat 0%nat * mget ZTau 1%nat 1%nat
        + #2 * MFtau * mget ZTau 0%nat 1%nat * mget ZTau 1%nat 1%nat)
    ; #2 * mu * D1B0 (vget M2Stau 1%nat) (vget M2Stau 1%nat) * pow2 ytau * mget ZTau 1%nat 0%nat * mget ZTau 1%nat
        1%nat * (MFtau * (pow2 (mget ZTau 1%nat 0%nat) + pow2 (mget ZTau 1%nat 1%nat)) + Atau * mget ZTau 1%nat 0%nat
        * mget ZTau 1%nat 1%nat) ].

  (** source/himalaya/mh2_fo/MSSM_mass_eigenstates.cpp:424-485, the terms added to se22 *)
  Definition gd_se22 (pars : Params T) (masses : Spectrum T) (orders : cord -> Z) : list T :=
    let q := scale pars in
    let yt := a22 (Yu pars) in
    let yb := if (orders ONLY_AT_AS =? 1)%Z then #0 else a22 (Yd pars) in
    let ytau := if (orders ONLY_AT_AS =? 1)%Z then #0 else a22 (Ye pars) in
    let mu := mu pars in
    let At := a22 (Au pars) in
    let MFt := MFt masses in
    let M2St := M2St masses in
    let M2Sb := M2Sb masses in
    let M2Stau := M2Stau masses in
    let ZT := ZT masses in
    let ZB := ZB masses in
    let ZTau := ZTau masses in
    [ #(-3) * B0 q #0 (pow2 MFt) (pow2 MFt) * pow2 yt
    ; #12 * D1B0 (pow2 MFt) (pow2 MFt) * pow2 (MFt * yt)
    ; #(-6) * D1B0 (vget M2Sb 0%nat) (vget M2Sb 0%nat) * pow2 (mu * yb * mget ZB 0%nat 0%nat * mget ZB 0%nat 1%nat)
    ; #(-6) * D1B0 (vget M2Sb 1%nat) (vget M2Sb 1%nat) * pow2 (mu * yb * mget ZB 1%nat 0%nat * mget ZB 1%nat 1%nat)
    ; #(-3) * D1B0 (vget M2Sb 0%nat) (vget M2Sb 1%nat) * pow2 (mu * yb * (mget ZB 0%nat 1%nat * mget ZB 1%nat 0%nat
        + mget ZB 0%nat 0%nat * mget ZB 1%nat 1%nat))
    ; #(-6) * D1B0 (vget M2St 0%nat) (vget M2St 0%nat) * pow2 (yt * (MFt * (pow2 (mget ZT 0%nat 0%nat) + pow2 (mget
        ZT 0%nat 1%nat)) + At * mget ZT 0%nat 0%nat * mget ZT 0%nat 1%nat))
    ; #(-3) * D1B0 (vget M2St 0%nat) (vget M2St 1%nat) * pow2 (yt * (#2 * MFt * mget ZT 0%nat 0%nat * mget ZT 1%nat
        0%nat + At * mget ZT 0%nat 1%nat * mget ZT 1%nat 0%nat + At * mget ZT 0%nat 0%nat * mget ZT 1%nat 1%nat + #2 *
        MFt * mget ZT 0%nat 1%nat * mget ZT 1%nat 1%nat))
    ; #(-6) * D1B0 (vget M2St 1%nat) (vget M2St 1%nat) * pow2 (yt * (MFt * (pow2 (mget ZT 1%nat 0%nat) + pow2 (mget
        ZT 1%nat 1%nat)) + At * mget ZT 1%nat 0%nat * mget ZT 1%nat 1%nat))
    ; #(-2) * D1B0 (vget M2Stau 0%nat) (vget M2Stau 0%nat) * pow2 (mu * ytau * mget ZTau 0%nat 0%nat * mget ZTau
        0%nat 1%nat)
    ; #(-2) * D1B0 (vget M2Stau 1%nat) (vget M2Stau 1%nat) * pow2 (mu * ytau * mget ZTau 1%nat 0%nat * mget ZTau
        1%nat 1%nat)
    ; - (D1B0 (vget M2Stau 0%nat) (vget M2Stau 1%nat) * pow2 (mu * ytau * (mget ZTau 0%nat 1%nat * mget ZTau 1%nat
        0%nat + mget ZTau 0%nat 0%nat * mget ZTau 1%nat 1%nat))) ].

  (** se * oneLoop with se = (se11, se12; se12, se22) *)
  Definition se_matrix (l11 l12 l22 : list T) : mat2 T :=
    mkM2 (accum l11 * nconst ConeLoop) (accum l12 * nconst ConeLoop) (accum l12 * nconst ConeLoop) (accum l22 * nconst ConeLoop).
  (** source/himalaya/mh2_fo/MSSM_mass_eigenstates.cpp:199-329 *)
  Definition delta_mh2_1loop (me : ME) (p2 : T) : mat2 T :=
    let p := me_pars me in let s := me_masses me in se_matrix (d1_se11 p s p2) (d1_se12 p s p2) (d1_se22 p s p2).
  (** source/himalaya/mh2_fo/MSSM_mass_eigenstates.cpp:340-412; the masses are those of the member gaugeless *)
  Definition delta_mh2_1loop_gaugeless (me : ME) : mat2 T :=
    let p := me_pars me in let s := me_gaugeless me in let o := me_orders me in se_matrix (gl_se11 p s o) (gl_se12 p s o) (gl_se22 p s o).
  (** source/himalaya/mh2_fo/MSSM_mass_eigenstates.cpp:424-485 *)
  Definition delta_mh2_1loop_gaugeless_deriv (me : ME) : mat2 T :=
    let p := me_pars me in let s := me_gaugeless me in let o := me_orders me in se_matrix (gd_se11 p s o) (gd_se12 p s o) (gd_se22 p s o).
  (** source/himalaya/mh2_fo/MSSM_mass_eigenstates.cpp:642-645 and source/himalaya/mh2_fo/MSSM_mass_eigenstates.cpp:647-650 *)
  Definition fo_mass_matrix_hh (me : ME) : mat2 T := get_mass_matrix_hh (sp_pars (me_masses me)).
  Definition fo_mass_matrix_hh_gaugeless (me : ME) : mat2 T := get_mass_matrix_hh (sp_pars (me_gaugeless me)).
  (** Eigen: matrix * scalar *)
  Definition mat2_times (m : mat2 T) (x : T) : mat2 T := mkM2 (m00 m * x) (m01 m * x) (m10 m * x) (m11 m * x).

  (** source/himalaya/mh2_fo/MSSM_mass_eigenstates.cpp:588-601 *)
  Definition delta_mh2_2loop_mom_it_pert (me : ME) : mat2 T :=
    let DMH_0L := fo_mass_matrix_hh_gaugeless me in
    let DMH_1L := delta_mh2_1loop_gaugeless me in
    let '(_, o1, _, _) := fs_diagonalize_hermitian_perturbatively DMH_0L DMH_1L mat2_zero mat2_zero in
    mat2_times (delta_mh2_1loop_gaugeless_deriv me) (v0 o1).

  (** the while loop of delta_mh2_2loop_mom_it_num: [k] iterations are still allowed.  Returns DMH, p2, has_converged and the
      number of iterations done *)
  Fixpoint mom_it_loop (E : EigenLib T) (me : ME) (goal : T) (k : nat) (DMH : mat2 T) (p2 : T) (n : nat) : mat2 T * T * bool * nat :=
    match k with
    | O => (DMH, p2, false, n)
    | S k =>
      let DMH := mat2_add (fo_mass_matrix_hh me) (delta_mh2_1loop me p2) in
      let M2hh0 := v0 (fst (fs_diagonalize_hermitian E DMH)) in
      let has_converged := is_equal_rel M2hh0 p2 goal in
      if has_converged then (DMH, M2hh0, true, S n) else mom_it_loop E me goal k DMH M2hh0 (S n)
    end.
  (** source/himalaya/mh2_fo/MSSM_mass_eigenstates.cpp:612-640.  n < max_iterations with n counting from 0 allows Z.to_nat max_iterations iterations *)
  Definition delta_mh2_2loop_mom_it_num (E : EigenLib T) (me : ME) (precision_goal : T) (max_iterations : Z) : mat2 T :=
    let DMH_0L := fo_mass_matrix_hh me in
    let mh2_0L := v0 (M2hh (me_masses me)) in
    let '(DMH, _, _, _) := mom_it_loop E me precision_goal (Z.to_nat max_iterations) mat2_zero mh2_0L 0 in
    mat2_sub (mat2_sub DMH DMH_0L) (delta_mh2_1loop me mh2_0L).

  (** source/himalaya/mh2_fo/MSSM_mass_eigenstates.cpp:502-580 *)
  Definition delta_mh2_2loop (E : EigenLib T) (ft : Fort T) (me : ME) : mat2 T :=
    let pars := me_pars me in
    let g3' := g3 pars in
    let mt2 := pow2 (MFt (me_gaugeless me)) in
    let mb2 := pow2 (MFb (me_gaugeless me)) in
    let mtau2 := pow2 (MFtau (me_gaugeless me)) in
    let mg := MG pars in
    let mst12 := pow2 (v0 (MSt pars)) in
    let mst22 := pow2 (v1 (MSt pars)) in
    let msb12 := pow2 (v0 (MSb pars)) in
    let msb22 := pow2 (v1 (MSb pars)) in
    let mstau12 := pow2 (v0 (MStau pars)) in
    let mstau22 := pow2 (v1 (MStau pars)) in
    let msv2 := M2SvtL (me_gaugeless me) in
    let mA2 := pow2 (MA pars) in
    let sxt := nsin (theta_t pars) in
    let cxt := ncos (theta_t pars) in
    let sxb := nsin (theta_b pars) in
    let cxb := ncos (theta_b pars) in
    let sxtau := nsin (theta_tau pars) in
    let cxtau := ncos (theta_tau pars) in
    let scale2 := pow2 (scale pars) in
    let mu' := - mu pars in
    let tanb := vu pars / vd pars in
    let cotb := #1 / tanb in
    let vev2 := pow2 (vu pars) + pow2 (vd pars) in
    let on k := negb (me_orders me k =? 0)%Z in
    let dmh := mat2_zero in
    let dmh := match me_mom_it me with
               | mi_pert => mat2_add dmh (delta_mh2_2loop_mom_it_pert me)
               | mi_num => mat2_add dmh (delta_mh2_2loop_mom_it_num E me (me_precision me) (me_max_iterations me))
               | mi_off => dmh end in
    let dmh := if on G32YT4
      then mat2_add dmh (delta_mh2_2loop_at_as ft mt2 mg mst12 mst22 sxt cxt scale2 mu' tanb vev2 g3' 1) else dmh in
    let dmh := if on G32YB4
      then mat2_add dmh (delta_mh2_2loop_ab_as ft mb2 mg msb12 msb22 sxb cxb scale2 mu' cotb vev2 g3' 1) else dmh in
    let dmh := if on YT6
      then mat2_add dmh (delta_mh2_2loop_at_at ft mt2 mb2 mA2 mst12 mst22 msb12 msb22 sxt cxt sxb cxb scale2 mu' tanb vev2 1
                           (me_orders me ONLY_AT_AS)) else dmh in
    let dmh := if on YTAU6
      then mat2_add dmh (delta_mh2_2loop_atau_atau ft mtau2 mA2 msv2 mstau12 mstau22 sxtau cxtau scale2 mu' tanb vev2 1) else dmh in
    let dmh := if on YTAU2YB4 || on YTAU4YB2
      then mat2_add dmh (delta_mh2_2loop_ab_atau ft mtau2 mb2 mstau12 mstau22 msb12 msb22 sxtau cxtau sxb cxb scale2 mu' tanb vev2 1)
      else dmh in
    dmh.

  (** source/himalaya/mh2_fo/MSSM_mass_eigenstates.cpp:140-146 *)
  Definition calculate_Mh2_tree (me : ME) : vec2 T :=
    let '(o0, _, _, _) := fs_diagonalize_hermitian_perturbatively (fo_mass_matrix_hh me) mat2_zero mat2_zero mat2_zero in o0.
  (** source/himalaya/mh2_fo/MSSM_mass_eigenstates.cpp:155-189 *)
  Definition calculate_Mh2 (E : EigenLib T) (ft : Fort T) (me : ME) : T * T * T :=
    let p2 := v0 (calculate_Mh2_tree me) in
    let m0 := fo_mass_matrix_hh me in
    let m1 := delta_mh2_1loop me p2 in
    let m2 := delta_mh2_2loop E ft me in
    match me_diag me with
    | di_pert =>
      let m0_gl := fo_mass_matrix_hh_gaugeless me in
      let m1_gl := delta_mh2_1loop_gaugeless me in
      let '(h0, h1, _, _) := fs_diagonalize_hermitian_perturbatively m0 m1 mat2_zero mat2_zero in
      let '(_, _, h2, _) := fs_diagonalize_hermitian_perturbatively m0_gl m1_gl m2 mat2_zero in
      (v0 h0, v0 h1, v0 h2)
    | di_num =>
      let M2hh_0L := fst (fs_diagonalize_hermitian E m0) in
      let M2hh_1L := fst (fs_diagonalize_hermitian E (mat2_add m0 m1)) in
      let M2hh_2L := fst (fs_diagonalize_hermitian E (mat2_add (mat2_add m0 m1) m2)) in
      (v0 M2hh_0L, v0 M2hh_1L - v0 M2hh_0L, v0 M2hh_2L - v0 M2hh_1L)
    end.

  (** source/himalaya/mh2_fo/MSSM_mass_eigenstates.cpp:652-658.  The range check of flag only writes a log message; array::at throws for an index outside 0..22 *)
  Definition set_correction (me : ME) (order : cord) (flag : Z) : res ME :=
    if (0 <=? cord_index order)%Z && (cord_index order <? 23)%Z
    then Ok (mkME (me_pars me) (me_masses me) (me_gaugeless me) (fun o => if cord_eqb o order then flag else me_orders me o)
               (me_mom_it me) (me_precision me) (me_max_iterations me) (me_diag me))
    else Throw "array::at"%string.
  (** source/himalaya/mh2_fo/MSSM_mass_eigenstates.cpp:660-668 *)
  Definition set_mom_it (me : ME) (mi : Momentum_iteration) (goal : T) (n : Z) : ME :=
    mkME (me_pars me) (me_masses me) (me_gaugeless me) (me_orders me) mi goal n (me_diag me).
  (** source/himalaya/mh2_fo/MSSM_mass_eigenstates.cpp:670-673 *)
  Definition set_diagonalization (me : ME) (d : Diagonalization) : ME :=
    mkME (me_pars me) (me_masses me) (me_gaugeless me) (me_orders me) (me_mom_it me) (me_precision me) (me_max_iterations me) d.

  (** source/himalaya/mh2_fo/MSSM_mass_eigenstates.cpp:40-46 *)
  Definition make_gaugeless (p : Params T) : Params T :=
    mkParams (scale p) (mu p) #0 #0 (g3 p) (vd p) (vu p) (mq2 p) (md2 p) (mu2 p) (ml2 p) (me2 p) (Au p) (Ad p) (Ae p) (Yu p) (Yd p) (Ye p)
      (M1 p) (M2 p) (MG p) (MW p) (MZ p) (Mt p) (Mb p) (Mtau p) (MA p) (MSt p) (MSb p) (MStau p) (s2t p) (s2b p) (s2tau p)
      (theta_t p) (theta_b p) (theta_tau p) (massLimit3LThreshold p).
  (** std::numeric_limits<double>::quiet_NaN() *)
  Definition NaN : T := #0 / #0.
  (** source/himalaya/mh2_fo/MSSM_mass_eigenstates.cpp:49-80 *)
  Definition make_3rd_gen (E : EigenLib T) (p : Params T) : res (Params T) :=
    let eps := ndec 1 6 in
    let y (a : T) : mat3 T := mkM3 #0 #0 #0 #0 #0 #0 #0 #0 a in
    validate E (mkParams (scale p) (mu p) (g1 p) (g2 p) (g3 p) (vd p) (vu p) (mq2 p) (md2 p) (mu2 p) (ml2 p) (me2 p)
      (Au p) (Ad p) (Ae p) (y (a22 (Yu p))) (y eps) (y eps)
      (M1 p) (M2 p) (MG p) (MW p) (MZ p) (Mt p) NaN NaN (MA p) (MSt p) (mkV2 NaN NaN) (mkV2 NaN NaN) (s2t p) NaN NaN
      (theta_t p) NaN NaN (massLimit3LThreshold p)).

  (** source/himalaya/mh2_fo/MSSM_mass_eigenstates.cpp:90-134; the arguments E, F stand for the external decompositions *)
  Definition newME (E : EigenLib T) (F : FermionLib T) (pars_ : Params T) (only_at : bool) : res ME :=
    let gaugeless := newSpectrum E F (make_gaugeless pars_) in
    let o := fun _ : cord => 1%Z in
    let eps := ndec 1 10 in
    let o := if nabs (Mt pars_) <? eps then setFlags [(G32YT4, 0); (YT6, 0); (YB6, 0)]%Z o else o in
    let o := if nabs (Mb pars_) <? eps then setFlags [(G32YB4, 0); (YT6, 0); (YB6, 0); (YTAU2YB4, 0); (YTAU4YB2, 0)]%Z o else o in
    let o := if nabs (Mtau pars_) <? eps then setFlags [(YTAU6, 0); (YTAU2YB4, 0); (YTAU4YB2, 0)]%Z o else o in
    if only_at then
      let o := setFlags [(YB6, 0); (YTAU6, 0); (YTAU2YB4, 0); (YTAU4YB2, 0); (G32YB4, 0)]%Z o in
      let pars := make_gaugeless pars_ in
      do gen3 <- make_3rd_gen E pars;
      Ok (mkME pars (set_M2hh0 (newSpectrum E F gen3) #0) gaugeless o mi_pert (ndec 1 5) 100 di_pert)
    else
      Ok (mkME pars_ (newSpectrum E F pars_) gaugeless (setFlags [(ONLY_AT_AS, 0)]%Z o) mi_pert (ndec 1 5) 100 di_pert).
End FixedOrder.
Arguments ME T : clear implicits.
