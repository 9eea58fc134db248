(** * Limits of the strong corrections for coinciding masses: certificates
    GENERATED by tools/gen_asym.py *)
From Coq Require Import Reals Lra List ZArith Bool.
From Verif Require Import Num HierFormulas DilogSpec ThreshViews Defined AsymPoly AsymNF AsymNFok AsymReif.
Import ListNotations.
Open Scope R_scope.
Definition cfg_GQU : list kind := [K0;KE;K1;K2;K0;K0;K1;K2].
Definition cfg_GQM : list kind := [K0;K1;KE;K2;K0;K1;K0;K2].
Definition cfg_GUM : list kind := [K1;K0;KE;K2;K1;K0;K0;K2].
Definition cfg_QU : list kind := [K0;K0;KE;K1;K0;K0;K0;K1].
Definition cfg_QM : list kind := [K0;KE;K0;K1;K0;K0;K0;K1].
Definition cfg_UM : list kind := [K0;KE;KE;K1;K0;K0;K0;K1].
Definition cfg_D : list kind := [K0;K0;K0;KE;K0;K0;K0;K0].
Definition cfg_GQUa : list kind := [K0;KE;K1;K1;K0;K0;K1;K1].
Definition cfg_GQUb : list kind := [K0;KE;K1;K0;K0;K0;K1;K0].
Definition cfg_GQMa : list kind := [K0;K1;KE;K1;K0;K1;K0;K1].
Definition cfg_GUMa : list kind := [K1;K0;KE;K1;K1;K0;K0;K1].
Section Cases.
  Context (L : R -> R) (q x1 x2 X lam z X4 X5 X6 : R) (HL : is_ReLi2 L) (Hq : 0 < q) (H1 : 0 < x1) (H2 : 0 < x2) (N1 : x1 <> 1) (N2 : x2 <> 1) (N12 : x1 <> x2).
  Lemma use n cfg a b (f g : R -> R) : chk n = true -> limit_check n cfg (Defined.ES a b) = true ->
    (forall e, f e = evL L (vals cfg q x1 x2 X lam z X4 X5 X6 e) a) -> (forall e, g e = evL L (vals cfg q x1 x2 X lam z X4 X5 X6 e) b) -> bigO 1 (fun e => f e - g e).
  Proof.
    intros C V Hf Hg. eapply bigO_ext; [|apply (limit_check_ok n cfg L q x1 x2 X lam z X4 X5 X6 HL Hq H1 H2 N1 N2 N12 C _ V)].
    intros e. unfold val. cbn [evL nsub NumR]. rewrite <- Hf, <- Hg. reflexivity.
  Qed.
  Lemma c_vev_GQU_check : limit_check 3 cfg_GQU (Defined.ES (proj1_sig r_vev_G) (proj1_sig r_vev_QUs)) = true. Proof. vm_compute. reflexivity. Qed.
  Lemma c_vev_GQU : bigO 1 (fun e => vev_G (q * q) ((q * (1 + e)) * (q * (1 + e))) X - vev_QU (q * q) X).
  Proof. refine (use 3 cfg_GQU _ _ (fun e => vev_G (q * q) ((q * (1 + e)) * (q * (1 + e))) X) (fun e => vev_QU (q * q) X) _ c_vev_GQU_check _ _); [vm_compute; reflexivity|intros e; exact (proj2_sig r_vev_G L (q * q) ((q * (1 + e)) * (q * (1 + e))) ((q * x1) * (q * x1)) ((q * x2) * (q * x2)) (q * q) (q * q) ((q * x1) * (q * x1)) ((q * x2) * (q * x2)) q (q * (1 + e)) (q * x1) (q * x2) q q (q * x1) (q * x2) X lam z X4 X5 X6)|intros e; exact (proj2_sig r_vev_QUs L (q * q) ((q * (1 + e)) * (q * (1 + e))) ((q * x1) * (q * x1)) ((q * x2) * (q * x2)) (q * q) (q * q) ((q * x1) * (q * x1)) ((q * x2) * (q * x2)) q (q * (1 + e)) (q * x1) (q * x2) q q (q * x1) (q * x2) X lam z X4 X5 X6)]. Qed.
  Lemma c_vev_GQM_check : limit_check 1 cfg_GQM (Defined.ES (proj1_sig r_vev_G) (proj1_sig r_vev_Gs)) = true. Proof. vm_compute. reflexivity. Qed.
  Lemma c_vev_GQM : bigO 1 (fun e => vev_G (q * q) ((q * x1) * (q * x1)) X - vev_G (q * q) ((q * x1) * (q * x1)) X).
  Proof. refine (use 1 cfg_GQM _ _ (fun e => vev_G (q * q) ((q * x1) * (q * x1)) X) (fun e => vev_G (q * q) ((q * x1) * (q * x1)) X) _ c_vev_GQM_check _ _); [vm_compute; reflexivity|intros e; exact (proj2_sig r_vev_G L (q * q) ((q * x1) * (q * x1)) ((q * (1 + e)) * (q * (1 + e))) ((q * x2) * (q * x2)) (q * q) ((q * x1) * (q * x1)) (q * q) ((q * x2) * (q * x2)) q (q * x1) (q * (1 + e)) (q * x2) q (q * x1) q (q * x2) X lam z X4 X5 X6)|intros e; exact (proj2_sig r_vev_Gs L (q * q) ((q * x1) * (q * x1)) ((q * (1 + e)) * (q * (1 + e))) ((q * x2) * (q * x2)) (q * q) ((q * x1) * (q * x1)) (q * q) ((q * x2) * (q * x2)) q (q * x1) (q * (1 + e)) (q * x2) q (q * x1) q (q * x2) X lam z X4 X5 X6)]. Qed.
  Lemma c_vev_GUM_check : limit_check 1 cfg_GUM (Defined.ES (proj1_sig r_vev_G) (proj1_sig r_vev_Gs)) = true. Proof. vm_compute. reflexivity. Qed.
  Lemma c_vev_GUM : bigO 1 (fun e => vev_G ((q * x1) * (q * x1)) (q * q) X - vev_G ((q * x1) * (q * x1)) (q * q) X).
  Proof. refine (use 1 cfg_GUM _ _ (fun e => vev_G ((q * x1) * (q * x1)) (q * q) X) (fun e => vev_G ((q * x1) * (q * x1)) (q * q) X) _ c_vev_GUM_check _ _); [vm_compute; reflexivity|intros e; exact (proj2_sig r_vev_G L ((q * x1) * (q * x1)) (q * q) ((q * (1 + e)) * (q * (1 + e))) ((q * x2) * (q * x2)) ((q * x1) * (q * x1)) (q * q) (q * q) ((q * x2) * (q * x2)) (q * x1) q (q * (1 + e)) (q * x2) (q * x1) q q (q * x2) X lam z X4 X5 X6)|intros e; exact (proj2_sig r_vev_Gs L ((q * x1) * (q * x1)) (q * q) ((q * (1 + e)) * (q * (1 + e))) ((q * x2) * (q * x2)) ((q * x1) * (q * x1)) (q * q) (q * q) ((q * x2) * (q * x2)) (q * x1) q (q * (1 + e)) (q * x2) (q * x1) q q (q * x2) X lam z X4 X5 X6)]. Qed.
  Lemma c_vev_QU_check : limit_check 1 cfg_QU (Defined.ES (proj1_sig r_vev_QU) (proj1_sig r_vev_QUs)) = true. Proof. vm_compute. reflexivity. Qed.
  Lemma c_vev_QU : bigO 1 (fun e => vev_QU (q * q) X - vev_QU (q * q) X).
  Proof. refine (use 1 cfg_QU _ _ (fun e => vev_QU (q * q) X) (fun e => vev_QU (q * q) X) _ c_vev_QU_check _ _); [vm_compute; reflexivity|intros e; exact (proj2_sig r_vev_QU L (q * q) (q * q) ((q * (1 + e)) * (q * (1 + e))) ((q * x1) * (q * x1)) (q * q) (q * q) (q * q) ((q * x1) * (q * x1)) q q (q * (1 + e)) (q * x1) q q q (q * x1) X lam z X4 X5 X6)|intros e; exact (proj2_sig r_vev_QUs L (q * q) (q * q) ((q * (1 + e)) * (q * (1 + e))) ((q * x1) * (q * x1)) (q * q) (q * q) (q * q) ((q * x1) * (q * x1)) q q (q * (1 + e)) (q * x1) q q q (q * x1) X lam z X4 X5 X6)]. Qed.
  Lemma c_vev_QM_check : limit_check 3 cfg_QM (Defined.ES (proj1_sig r_vev_G) (proj1_sig r_vev_QUs)) = true. Proof. vm_compute. reflexivity. Qed.
  Lemma c_vev_QM : bigO 1 (fun e => vev_G (q * q) ((q * (1 + e)) * (q * (1 + e))) X - vev_QU (q * q) X).
  Proof. refine (use 3 cfg_QM _ _ (fun e => vev_G (q * q) ((q * (1 + e)) * (q * (1 + e))) X) (fun e => vev_QU (q * q) X) _ c_vev_QM_check _ _); [vm_compute; reflexivity|intros e; exact (proj2_sig r_vev_G L (q * q) ((q * (1 + e)) * (q * (1 + e))) (q * q) ((q * x1) * (q * x1)) (q * q) (q * q) (q * q) ((q * x1) * (q * x1)) q (q * (1 + e)) q (q * x1) q q q (q * x1) X lam z X4 X5 X6)|intros e; exact (proj2_sig r_vev_QUs L (q * q) ((q * (1 + e)) * (q * (1 + e))) (q * q) ((q * x1) * (q * x1)) (q * q) (q * q) (q * q) ((q * x1) * (q * x1)) q (q * (1 + e)) q (q * x1) q q q (q * x1) X lam z X4 X5 X6)]. Qed.
  Lemma c_vev_UM_check : limit_check 3 cfg_UM (Defined.ES (proj1_sig r_vev_G) (proj1_sig r_vev_QUs)) = true. Proof. vm_compute. reflexivity. Qed.
  Lemma c_vev_UM : bigO 1 (fun e => vev_G (q * q) ((q * (1 + e)) * (q * (1 + e))) X - vev_QU (q * q) X).
  Proof. refine (use 3 cfg_UM _ _ (fun e => vev_G (q * q) ((q * (1 + e)) * (q * (1 + e))) X) (fun e => vev_QU (q * q) X) _ c_vev_UM_check _ _); [vm_compute; reflexivity|intros e; exact (proj2_sig r_vev_G L (q * q) ((q * (1 + e)) * (q * (1 + e))) ((q * (1 + e)) * (q * (1 + e))) ((q * x1) * (q * x1)) (q * q) (q * q) (q * q) ((q * x1) * (q * x1)) q (q * (1 + e)) (q * (1 + e)) (q * x1) q q q (q * x1) X lam z X4 X5 X6)|intros e; exact (proj2_sig r_vev_QUs L (q * q) ((q * (1 + e)) * (q * (1 + e))) ((q * (1 + e)) * (q * (1 + e))) ((q * x1) * (q * x1)) (q * q) (q * q) (q * q) ((q * x1) * (q * x1)) q (q * (1 + e)) (q * (1 + e)) (q * x1) q q q (q * x1) X lam z X4 X5 X6)]. Qed.
  Lemma c_vev_D_check : limit_check 1 cfg_D (Defined.ES (proj1_sig r_vev_QU) (proj1_sig r_vev_QUs)) = true. Proof. vm_compute. reflexivity. Qed.
  Lemma c_vev_D : bigO 1 (fun e => vev_QU (q * q) X - vev_QU (q * q) X).
  Proof. refine (use 1 cfg_D _ _ (fun e => vev_QU (q * q) X) (fun e => vev_QU (q * q) X) _ c_vev_D_check _ _); [vm_compute; reflexivity|intros e; exact (proj2_sig r_vev_QU L (q * q) (q * q) (q * q) ((q * (1 + e)) * (q * (1 + e))) (q * q) (q * q) (q * q) (q * q) q q q (q * (1 + e)) q q q q X lam z X4 X5 X6)|intros e; exact (proj2_sig r_vev_QUs L (q * q) (q * q) (q * q) ((q * (1 + e)) * (q * (1 + e))) (q * q) (q * q) (q * q) (q * q) q q q (q * (1 + e)) q q q q X lam z X4 X5 X6)]. Qed.
  Lemma c_vev_GQUa_check : limit_check 3 cfg_GQUa (Defined.ES (proj1_sig r_vev_G) (proj1_sig r_vev_QUs)) = true. Proof. vm_compute. reflexivity. Qed.
  Lemma c_vev_GQUa : bigO 1 (fun e => vev_G (q * q) ((q * (1 + e)) * (q * (1 + e))) X - vev_QU (q * q) X).
  Proof. refine (use 3 cfg_GQUa _ _ (fun e => vev_G (q * q) ((q * (1 + e)) * (q * (1 + e))) X) (fun e => vev_QU (q * q) X) _ c_vev_GQUa_check _ _); [vm_compute; reflexivity|intros e; exact (proj2_sig r_vev_G L (q * q) ((q * (1 + e)) * (q * (1 + e))) ((q * x1) * (q * x1)) ((q * x1) * (q * x1)) (q * q) (q * q) ((q * x1) * (q * x1)) ((q * x1) * (q * x1)) q (q * (1 + e)) (q * x1) (q * x1) q q (q * x1) (q * x1) X lam z X4 X5 X6)|intros e; exact (proj2_sig r_vev_QUs L (q * q) ((q * (1 + e)) * (q * (1 + e))) ((q * x1) * (q * x1)) ((q * x1) * (q * x1)) (q * q) (q * q) ((q * x1) * (q * x1)) ((q * x1) * (q * x1)) q (q * (1 + e)) (q * x1) (q * x1) q q (q * x1) (q * x1) X lam z X4 X5 X6)]. Qed.
  Lemma c_vev_GQUb_check : limit_check 3 cfg_GQUb (Defined.ES (proj1_sig r_vev_G) (proj1_sig r_vev_QUs)) = true. Proof. vm_compute. reflexivity. Qed.
  Lemma c_vev_GQUb : bigO 1 (fun e => vev_G (q * q) ((q * (1 + e)) * (q * (1 + e))) X - vev_QU (q * q) X).
  Proof. refine (use 3 cfg_GQUb _ _ (fun e => vev_G (q * q) ((q * (1 + e)) * (q * (1 + e))) X) (fun e => vev_QU (q * q) X) _ c_vev_GQUb_check _ _); [vm_compute; reflexivity|intros e; exact (proj2_sig r_vev_G L (q * q) ((q * (1 + e)) * (q * (1 + e))) ((q * x1) * (q * x1)) (q * q) (q * q) (q * q) ((q * x1) * (q * x1)) (q * q) q (q * (1 + e)) (q * x1) q q q (q * x1) q X lam z X4 X5 X6)|intros e; exact (proj2_sig r_vev_QUs L (q * q) ((q * (1 + e)) * (q * (1 + e))) ((q * x1) * (q * x1)) (q * q) (q * q) (q * q) ((q * x1) * (q * x1)) (q * q) q (q * (1 + e)) (q * x1) q q q (q * x1) q X lam z X4 X5 X6)]. Qed.
  Lemma c_vev_GQMa_check : limit_check 1 cfg_GQMa (Defined.ES (proj1_sig r_vev_G) (proj1_sig r_vev_Gs)) = true. Proof. vm_compute. reflexivity. Qed.
  Lemma c_vev_GQMa : bigO 1 (fun e => vev_G (q * q) ((q * x1) * (q * x1)) X - vev_G (q * q) ((q * x1) * (q * x1)) X).
  Proof. refine (use 1 cfg_GQMa _ _ (fun e => vev_G (q * q) ((q * x1) * (q * x1)) X) (fun e => vev_G (q * q) ((q * x1) * (q * x1)) X) _ c_vev_GQMa_check _ _); [vm_compute; reflexivity|intros e; exact (proj2_sig r_vev_G L (q * q) ((q * x1) * (q * x1)) ((q * (1 + e)) * (q * (1 + e))) ((q * x1) * (q * x1)) (q * q) ((q * x1) * (q * x1)) (q * q) ((q * x1) * (q * x1)) q (q * x1) (q * (1 + e)) (q * x1) q (q * x1) q (q * x1) X lam z X4 X5 X6)|intros e; exact (proj2_sig r_vev_Gs L (q * q) ((q * x1) * (q * x1)) ((q * (1 + e)) * (q * (1 + e))) ((q * x1) * (q * x1)) (q * q) ((q * x1) * (q * x1)) (q * q) ((q * x1) * (q * x1)) q (q * x1) (q * (1 + e)) (q * x1) q (q * x1) q (q * x1) X lam z X4 X5 X6)]. Qed.
  Lemma c_vev_GUMa_check : limit_check 1 cfg_GUMa (Defined.ES (proj1_sig r_vev_G) (proj1_sig r_vev_Gs)) = true. Proof. vm_compute. reflexivity. Qed.
  Lemma c_vev_GUMa : bigO 1 (fun e => vev_G ((q * x1) * (q * x1)) (q * q) X - vev_G ((q * x1) * (q * x1)) (q * q) X).
  Proof. refine (use 1 cfg_GUMa _ _ (fun e => vev_G ((q * x1) * (q * x1)) (q * q) X) (fun e => vev_G ((q * x1) * (q * x1)) (q * q) X) _ c_vev_GUMa_check _ _); [vm_compute; reflexivity|intros e; exact (proj2_sig r_vev_G L ((q * x1) * (q * x1)) (q * q) ((q * (1 + e)) * (q * (1 + e))) ((q * x1) * (q * x1)) ((q * x1) * (q * x1)) (q * q) (q * q) ((q * x1) * (q * x1)) (q * x1) q (q * (1 + e)) (q * x1) (q * x1) q q (q * x1) X lam z X4 X5 X6)|intros e; exact (proj2_sig r_vev_Gs L ((q * x1) * (q * x1)) (q * q) ((q * (1 + e)) * (q * (1 + e))) ((q * x1) * (q * x1)) ((q * x1) * (q * x1)) (q * q) (q * q) ((q * x1) * (q * x1)) (q * x1) q (q * (1 + e)) (q * x1) (q * x1) q q (q * x1) X lam z X4 X5 X6)]. Qed.
  Lemma c_yta_GQU_check : limit_check 1 cfg_GQU (Defined.ES (proj1_sig r_yta_G) (proj1_sig r_yta_QUs)) = true. Proof. vm_compute. reflexivity. Qed.
  Lemma c_yta_GQU : bigO 1 (fun e => yta_G (q * q) ((q * (1 + e)) * (q * (1 + e))) ((q * x1) * (q * x1)) q (q * (1 + e)) (q * x1) X lam - yta_QU (q * q) ((q * x1) * (q * x1)) q (q * x1) X lam).
  Proof. refine (use 1 cfg_GQU _ _ (fun e => yta_G (q * q) ((q * (1 + e)) * (q * (1 + e))) ((q * x1) * (q * x1)) q (q * (1 + e)) (q * x1) X lam) (fun e => yta_QU (q * q) ((q * x1) * (q * x1)) q (q * x1) X lam) _ c_yta_GQU_check _ _); [vm_compute; reflexivity|intros e; exact (proj2_sig r_yta_G L (q * q) ((q * (1 + e)) * (q * (1 + e))) ((q * x1) * (q * x1)) ((q * x2) * (q * x2)) (q * q) (q * q) ((q * x1) * (q * x1)) ((q * x2) * (q * x2)) q (q * (1 + e)) (q * x1) (q * x2) q q (q * x1) (q * x2) X lam z X4 X5 X6)|intros e; exact (proj2_sig r_yta_QUs L (q * q) ((q * (1 + e)) * (q * (1 + e))) ((q * x1) * (q * x1)) ((q * x2) * (q * x2)) (q * q) (q * q) ((q * x1) * (q * x1)) ((q * x2) * (q * x2)) q (q * (1 + e)) (q * x1) (q * x2) q q (q * x1) (q * x2) X lam z X4 X5 X6)]. Qed.
  Lemma c_yta_GQM_check : limit_check 2 cfg_GQM (Defined.ES (proj1_sig r_yta_G) (proj1_sig r_yta_QMs)) = true. Proof. vm_compute. reflexivity. Qed.
  Lemma c_yta_GQM : bigO 1 (fun e => yta_G (q * q) ((q * x1) * (q * x1)) ((q * (1 + e)) * (q * (1 + e))) q (q * x1) (q * (1 + e)) X lam - yta_QM (q * q) ((q * x1) * (q * x1)) q X lam).
  Proof. refine (use 2 cfg_GQM _ _ (fun e => yta_G (q * q) ((q * x1) * (q * x1)) ((q * (1 + e)) * (q * (1 + e))) q (q * x1) (q * (1 + e)) X lam) (fun e => yta_QM (q * q) ((q * x1) * (q * x1)) q X lam) _ c_yta_GQM_check _ _); [vm_compute; reflexivity|intros e; exact (proj2_sig r_yta_G L (q * q) ((q * x1) * (q * x1)) ((q * (1 + e)) * (q * (1 + e))) ((q * x2) * (q * x2)) (q * q) ((q * x1) * (q * x1)) (q * q) ((q * x2) * (q * x2)) q (q * x1) (q * (1 + e)) (q * x2) q (q * x1) q (q * x2) X lam z X4 X5 X6)|intros e; exact (proj2_sig r_yta_QMs L (q * q) ((q * x1) * (q * x1)) ((q * (1 + e)) * (q * (1 + e))) ((q * x2) * (q * x2)) (q * q) ((q * x1) * (q * x1)) (q * q) ((q * x2) * (q * x2)) q (q * x1) (q * (1 + e)) (q * x2) q (q * x1) q (q * x2) X lam z X4 X5 X6)]. Qed.
  Lemma c_yta_GUM_check : limit_check 2 cfg_GUM (Defined.ES (proj1_sig r_yta_G) (proj1_sig r_yta_UMs)) = true. Proof. vm_compute. reflexivity. Qed.
  Lemma c_yta_GUM : bigO 1 (fun e => yta_G ((q * x1) * (q * x1)) (q * q) ((q * (1 + e)) * (q * (1 + e))) (q * x1) q (q * (1 + e)) X lam - yta_UM ((q * x1) * (q * x1)) (q * q) (q * x1) q X lam).
  Proof. refine (use 2 cfg_GUM _ _ (fun e => yta_G ((q * x1) * (q * x1)) (q * q) ((q * (1 + e)) * (q * (1 + e))) (q * x1) q (q * (1 + e)) X lam) (fun e => yta_UM ((q * x1) * (q * x1)) (q * q) (q * x1) q X lam) _ c_yta_GUM_check _ _); [vm_compute; reflexivity|intros e; exact (proj2_sig r_yta_G L ((q * x1) * (q * x1)) (q * q) ((q * (1 + e)) * (q * (1 + e))) ((q * x2) * (q * x2)) ((q * x1) * (q * x1)) (q * q) (q * q) ((q * x2) * (q * x2)) (q * x1) q (q * (1 + e)) (q * x2) (q * x1) q q (q * x2) X lam z X4 X5 X6)|intros e; exact (proj2_sig r_yta_UMs L ((q * x1) * (q * x1)) (q * q) ((q * (1 + e)) * (q * (1 + e))) ((q * x2) * (q * x2)) ((q * x1) * (q * x1)) (q * q) (q * q) ((q * x2) * (q * x2)) (q * x1) q (q * (1 + e)) (q * x2) (q * x1) q q (q * x2) X lam z X4 X5 X6)]. Qed.
  Lemma c_yta_QU_check : limit_check 2 cfg_QU (Defined.ES (proj1_sig r_yta_QU) (proj1_sig r_yta_QUMs)) = true. Proof. vm_compute. reflexivity. Qed.
  Lemma c_yta_QU : bigO 1 (fun e => yta_QU (q * q) ((q * (1 + e)) * (q * (1 + e))) q (q * (1 + e)) X lam - yta_QUM q X lam).
  Proof. refine (use 2 cfg_QU _ _ (fun e => yta_QU (q * q) ((q * (1 + e)) * (q * (1 + e))) q (q * (1 + e)) X lam) (fun e => yta_QUM q X lam) _ c_yta_QU_check _ _); [vm_compute; reflexivity|intros e; exact (proj2_sig r_yta_QU L (q * q) (q * q) ((q * (1 + e)) * (q * (1 + e))) ((q * x1) * (q * x1)) (q * q) (q * q) (q * q) ((q * x1) * (q * x1)) q q (q * (1 + e)) (q * x1) q q q (q * x1) X lam z X4 X5 X6)|intros e; exact (proj2_sig r_yta_QUMs L (q * q) (q * q) ((q * (1 + e)) * (q * (1 + e))) ((q * x1) * (q * x1)) (q * q) (q * q) (q * q) ((q * x1) * (q * x1)) q q (q * (1 + e)) (q * x1) q q q (q * x1) X lam z X4 X5 X6)]. Qed.
  Lemma c_yta_QM_check : limit_check 2 cfg_QM (Defined.ES (proj1_sig r_yta_QM) (proj1_sig r_yta_QUMs)) = true. Proof. vm_compute. reflexivity. Qed.
  Lemma c_yta_QM : bigO 1 (fun e => yta_QM (q * q) ((q * (1 + e)) * (q * (1 + e))) q X lam - yta_QUM q X lam).
  Proof. refine (use 2 cfg_QM _ _ (fun e => yta_QM (q * q) ((q * (1 + e)) * (q * (1 + e))) q X lam) (fun e => yta_QUM q X lam) _ c_yta_QM_check _ _); [vm_compute; reflexivity|intros e; exact (proj2_sig r_yta_QM L (q * q) ((q * (1 + e)) * (q * (1 + e))) (q * q) ((q * x1) * (q * x1)) (q * q) (q * q) (q * q) ((q * x1) * (q * x1)) q (q * (1 + e)) q (q * x1) q q q (q * x1) X lam z X4 X5 X6)|intros e; exact (proj2_sig r_yta_QUMs L (q * q) ((q * (1 + e)) * (q * (1 + e))) (q * q) ((q * x1) * (q * x1)) (q * q) (q * q) (q * q) ((q * x1) * (q * x1)) q (q * (1 + e)) q (q * x1) q q q (q * x1) X lam z X4 X5 X6)]. Qed.
  Lemma c_yta_UM_check : limit_check 2 cfg_UM (Defined.ES (proj1_sig r_yta_UM) (proj1_sig r_yta_QUMs)) = true. Proof. vm_compute. reflexivity. Qed.
  Lemma c_yta_UM : bigO 1 (fun e => yta_UM (q * q) ((q * (1 + e)) * (q * (1 + e))) q (q * (1 + e)) X lam - yta_QUM q X lam).
  Proof. refine (use 2 cfg_UM _ _ (fun e => yta_UM (q * q) ((q * (1 + e)) * (q * (1 + e))) q (q * (1 + e)) X lam) (fun e => yta_QUM q X lam) _ c_yta_UM_check _ _); [vm_compute; reflexivity|intros e; exact (proj2_sig r_yta_UM L (q * q) ((q * (1 + e)) * (q * (1 + e))) ((q * (1 + e)) * (q * (1 + e))) ((q * x1) * (q * x1)) (q * q) (q * q) (q * q) ((q * x1) * (q * x1)) q (q * (1 + e)) (q * (1 + e)) (q * x1) q q q (q * x1) X lam z X4 X5 X6)|intros e; exact (proj2_sig r_yta_QUMs L (q * q) ((q * (1 + e)) * (q * (1 + e))) ((q * (1 + e)) * (q * (1 + e))) ((q * x1) * (q * x1)) (q * q) (q * q) (q * q) ((q * x1) * (q * x1)) q (q * (1 + e)) (q * (1 + e)) (q * x1) q q q (q * x1) X lam z X4 X5 X6)]. Qed.
  Lemma c_yta_D_check : limit_check 1 cfg_D (Defined.ES (proj1_sig r_yta_QUM) (proj1_sig r_yta_QUMs)) = true. Proof. vm_compute. reflexivity. Qed.
  Lemma c_yta_D : bigO 1 (fun e => yta_QUM q X lam - yta_QUM q X lam).
  Proof. refine (use 1 cfg_D _ _ (fun e => yta_QUM q X lam) (fun e => yta_QUM q X lam) _ c_yta_D_check _ _); [vm_compute; reflexivity|intros e; exact (proj2_sig r_yta_QUM L (q * q) (q * q) (q * q) ((q * (1 + e)) * (q * (1 + e))) (q * q) (q * q) (q * q) (q * q) q q q (q * (1 + e)) q q q q X lam z X4 X5 X6)|intros e; exact (proj2_sig r_yta_QUMs L (q * q) (q * q) (q * q) ((q * (1 + e)) * (q * (1 + e))) (q * q) (q * q) (q * q) (q * q) q q q (q * (1 + e)) q q q q X lam z X4 X5 X6)]. Qed.
  Lemma c_yta_GQUa_check : limit_check 1 cfg_GQUa (Defined.ES (proj1_sig r_yta_G) (proj1_sig r_yta_QUs)) = true. Proof. vm_compute. reflexivity. Qed.
  Lemma c_yta_GQUa : bigO 1 (fun e => yta_G (q * q) ((q * (1 + e)) * (q * (1 + e))) ((q * x1) * (q * x1)) q (q * (1 + e)) (q * x1) X lam - yta_QU (q * q) ((q * x1) * (q * x1)) q (q * x1) X lam).
  Proof. refine (use 1 cfg_GQUa _ _ (fun e => yta_G (q * q) ((q * (1 + e)) * (q * (1 + e))) ((q * x1) * (q * x1)) q (q * (1 + e)) (q * x1) X lam) (fun e => yta_QU (q * q) ((q * x1) * (q * x1)) q (q * x1) X lam) _ c_yta_GQUa_check _ _); [vm_compute; reflexivity|intros e; exact (proj2_sig r_yta_G L (q * q) ((q * (1 + e)) * (q * (1 + e))) ((q * x1) * (q * x1)) ((q * x1) * (q * x1)) (q * q) (q * q) ((q * x1) * (q * x1)) ((q * x1) * (q * x1)) q (q * (1 + e)) (q * x1) (q * x1) q q (q * x1) (q * x1) X lam z X4 X5 X6)|intros e; exact (proj2_sig r_yta_QUs L (q * q) ((q * (1 + e)) * (q * (1 + e))) ((q * x1) * (q * x1)) ((q * x1) * (q * x1)) (q * q) (q * q) ((q * x1) * (q * x1)) ((q * x1) * (q * x1)) q (q * (1 + e)) (q * x1) (q * x1) q q (q * x1) (q * x1) X lam z X4 X5 X6)]. Qed.
  Lemma c_yta_GQUb_check : limit_check 1 cfg_GQUb (Defined.ES (proj1_sig r_yta_G) (proj1_sig r_yta_QUs)) = true. Proof. vm_compute. reflexivity. Qed.
  Lemma c_yta_GQUb : bigO 1 (fun e => yta_G (q * q) ((q * (1 + e)) * (q * (1 + e))) ((q * x1) * (q * x1)) q (q * (1 + e)) (q * x1) X lam - yta_QU (q * q) ((q * x1) * (q * x1)) q (q * x1) X lam).
  Proof. refine (use 1 cfg_GQUb _ _ (fun e => yta_G (q * q) ((q * (1 + e)) * (q * (1 + e))) ((q * x1) * (q * x1)) q (q * (1 + e)) (q * x1) X lam) (fun e => yta_QU (q * q) ((q * x1) * (q * x1)) q (q * x1) X lam) _ c_yta_GQUb_check _ _); [vm_compute; reflexivity|intros e; exact (proj2_sig r_yta_G L (q * q) ((q * (1 + e)) * (q * (1 + e))) ((q * x1) * (q * x1)) (q * q) (q * q) (q * q) ((q * x1) * (q * x1)) (q * q) q (q * (1 + e)) (q * x1) q q q (q * x1) q X lam z X4 X5 X6)|intros e; exact (proj2_sig r_yta_QUs L (q * q) ((q * (1 + e)) * (q * (1 + e))) ((q * x1) * (q * x1)) (q * q) (q * q) (q * q) ((q * x1) * (q * x1)) (q * q) q (q * (1 + e)) (q * x1) q q q (q * x1) q X lam z X4 X5 X6)]. Qed.
  Lemma c_yta_GQMa_check : limit_check 2 cfg_GQMa (Defined.ES (proj1_sig r_yta_G) (proj1_sig r_yta_QMs)) = true. Proof. vm_compute. reflexivity. Qed.
  Lemma c_yta_GQMa : bigO 1 (fun e => yta_G (q * q) ((q * x1) * (q * x1)) ((q * (1 + e)) * (q * (1 + e))) q (q * x1) (q * (1 + e)) X lam - yta_QM (q * q) ((q * x1) * (q * x1)) q X lam).
  Proof. refine (use 2 cfg_GQMa _ _ (fun e => yta_G (q * q) ((q * x1) * (q * x1)) ((q * (1 + e)) * (q * (1 + e))) q (q * x1) (q * (1 + e)) X lam) (fun e => yta_QM (q * q) ((q * x1) * (q * x1)) q X lam) _ c_yta_GQMa_check _ _); [vm_compute; reflexivity|intros e; exact (proj2_sig r_yta_G L (q * q) ((q * x1) * (q * x1)) ((q * (1 + e)) * (q * (1 + e))) ((q * x1) * (q * x1)) (q * q) ((q * x1) * (q * x1)) (q * q) ((q * x1) * (q * x1)) q (q * x1) (q * (1 + e)) (q * x1) q (q * x1) q (q * x1) X lam z X4 X5 X6)|intros e; exact (proj2_sig r_yta_QMs L (q * q) ((q * x1) * (q * x1)) ((q * (1 + e)) * (q * (1 + e))) ((q * x1) * (q * x1)) (q * q) ((q * x1) * (q * x1)) (q * q) ((q * x1) * (q * x1)) q (q * x1) (q * (1 + e)) (q * x1) q (q * x1) q (q * x1) X lam z X4 X5 X6)]. Qed.
  Lemma c_yta_GUMa_check : limit_check 2 cfg_GUMa (Defined.ES (proj1_sig r_yta_G) (proj1_sig r_yta_UMs)) = true. Proof. vm_compute. reflexivity. Qed.
  Lemma c_yta_GUMa : bigO 1 (fun e => yta_G ((q * x1) * (q * x1)) (q * q) ((q * (1 + e)) * (q * (1 + e))) (q * x1) q (q * (1 + e)) X lam - yta_UM ((q * x1) * (q * x1)) (q * q) (q * x1) q X lam).
  Proof. refine (use 2 cfg_GUMa _ _ (fun e => yta_G ((q * x1) * (q * x1)) (q * q) ((q * (1 + e)) * (q * (1 + e))) (q * x1) q (q * (1 + e)) X lam) (fun e => yta_UM ((q * x1) * (q * x1)) (q * q) (q * x1) q X lam) _ c_yta_GUMa_check _ _); [vm_compute; reflexivity|intros e; exact (proj2_sig r_yta_G L ((q * x1) * (q * x1)) (q * q) ((q * (1 + e)) * (q * (1 + e))) ((q * x1) * (q * x1)) ((q * x1) * (q * x1)) (q * q) (q * q) ((q * x1) * (q * x1)) (q * x1) q (q * (1 + e)) (q * x1) (q * x1) q q (q * x1) X lam z X4 X5 X6)|intros e; exact (proj2_sig r_yta_UMs L ((q * x1) * (q * x1)) (q * q) ((q * (1 + e)) * (q * (1 + e))) ((q * x1) * (q * x1)) ((q * x1) * (q * x1)) (q * q) (q * q) ((q * x1) * (q * x1)) (q * x1) q (q * (1 + e)) (q * x1) (q * x1) q q (q * x1) X lam z X4 X5 X6)]. Qed.
  Lemma c_lat_GQU_check : limit_check 3 cfg_GQU (Defined.ES (proj1_sig r_lat_G) (proj1_sig r_lat_QUs)) = true. Proof. vm_compute. reflexivity. Qed.
  Lemma c_lat_GQU : bigO 1 (fun e => lat_G (q * q) ((q * (1 + e)) * (q * (1 + e))) X lam - lat_QU (q * q) X lam).
  Proof. refine (use 3 cfg_GQU _ _ (fun e => lat_G (q * q) ((q * (1 + e)) * (q * (1 + e))) X lam) (fun e => lat_QU (q * q) X lam) _ c_lat_GQU_check _ _); [vm_compute; reflexivity|intros e; exact (proj2_sig r_lat_G L (q * q) ((q * (1 + e)) * (q * (1 + e))) ((q * x1) * (q * x1)) ((q * x2) * (q * x2)) (q * q) (q * q) ((q * x1) * (q * x1)) ((q * x2) * (q * x2)) q (q * (1 + e)) (q * x1) (q * x2) q q (q * x1) (q * x2) X lam z X4 X5 X6)|intros e; exact (proj2_sig r_lat_QUs L (q * q) ((q * (1 + e)) * (q * (1 + e))) ((q * x1) * (q * x1)) ((q * x2) * (q * x2)) (q * q) (q * q) ((q * x1) * (q * x1)) ((q * x2) * (q * x2)) q (q * (1 + e)) (q * x1) (q * x2) q q (q * x1) (q * x2) X lam z X4 X5 X6)]. Qed.
  Lemma c_lat_GQM_check : limit_check 1 cfg_GQM (Defined.ES (proj1_sig r_lat_G) (proj1_sig r_lat_Gs)) = true. Proof. vm_compute. reflexivity. Qed.
  Lemma c_lat_GQM : bigO 1 (fun e => lat_G (q * q) ((q * x1) * (q * x1)) X lam - lat_G (q * q) ((q * x1) * (q * x1)) X lam).
  Proof. refine (use 1 cfg_GQM _ _ (fun e => lat_G (q * q) ((q * x1) * (q * x1)) X lam) (fun e => lat_G (q * q) ((q * x1) * (q * x1)) X lam) _ c_lat_GQM_check _ _); [vm_compute; reflexivity|intros e; exact (proj2_sig r_lat_G L (q * q) ((q * x1) * (q * x1)) ((q * (1 + e)) * (q * (1 + e))) ((q * x2) * (q * x2)) (q * q) ((q * x1) * (q * x1)) (q * q) ((q * x2) * (q * x2)) q (q * x1) (q * (1 + e)) (q * x2) q (q * x1) q (q * x2) X lam z X4 X5 X6)|intros e; exact (proj2_sig r_lat_Gs L (q * q) ((q * x1) * (q * x1)) ((q * (1 + e)) * (q * (1 + e))) ((q * x2) * (q * x2)) (q * q) ((q * x1) * (q * x1)) (q * q) ((q * x2) * (q * x2)) q (q * x1) (q * (1 + e)) (q * x2) q (q * x1) q (q * x2) X lam z X4 X5 X6)]. Qed.
  Lemma c_lat_GUM_check : limit_check 1 cfg_GUM (Defined.ES (proj1_sig r_lat_G) (proj1_sig r_lat_Gs)) = true. Proof. vm_compute. reflexivity. Qed.
  Lemma c_lat_GUM : bigO 1 (fun e => lat_G ((q * x1) * (q * x1)) (q * q) X lam - lat_G ((q * x1) * (q * x1)) (q * q) X lam).
  Proof. refine (use 1 cfg_GUM _ _ (fun e => lat_G ((q * x1) * (q * x1)) (q * q) X lam) (fun e => lat_G ((q * x1) * (q * x1)) (q * q) X lam) _ c_lat_GUM_check _ _); [vm_compute; reflexivity|intros e; exact (proj2_sig r_lat_G L ((q * x1) * (q * x1)) (q * q) ((q * (1 + e)) * (q * (1 + e))) ((q * x2) * (q * x2)) ((q * x1) * (q * x1)) (q * q) (q * q) ((q * x2) * (q * x2)) (q * x1) q (q * (1 + e)) (q * x2) (q * x1) q q (q * x2) X lam z X4 X5 X6)|intros e; exact (proj2_sig r_lat_Gs L ((q * x1) * (q * x1)) (q * q) ((q * (1 + e)) * (q * (1 + e))) ((q * x2) * (q * x2)) ((q * x1) * (q * x1)) (q * q) (q * q) ((q * x2) * (q * x2)) (q * x1) q (q * (1 + e)) (q * x2) (q * x1) q q (q * x2) X lam z X4 X5 X6)]. Qed.
  Lemma c_lat_QU_check : limit_check 1 cfg_QU (Defined.ES (proj1_sig r_lat_QU) (proj1_sig r_lat_QUs)) = true. Proof. vm_compute. reflexivity. Qed.
  Lemma c_lat_QU : bigO 1 (fun e => lat_QU (q * q) X lam - lat_QU (q * q) X lam).
  Proof. refine (use 1 cfg_QU _ _ (fun e => lat_QU (q * q) X lam) (fun e => lat_QU (q * q) X lam) _ c_lat_QU_check _ _); [vm_compute; reflexivity|intros e; exact (proj2_sig r_lat_QU L (q * q) (q * q) ((q * (1 + e)) * (q * (1 + e))) ((q * x1) * (q * x1)) (q * q) (q * q) (q * q) ((q * x1) * (q * x1)) q q (q * (1 + e)) (q * x1) q q q (q * x1) X lam z X4 X5 X6)|intros e; exact (proj2_sig r_lat_QUs L (q * q) (q * q) ((q * (1 + e)) * (q * (1 + e))) ((q * x1) * (q * x1)) (q * q) (q * q) (q * q) ((q * x1) * (q * x1)) q q (q * (1 + e)) (q * x1) q q q (q * x1) X lam z X4 X5 X6)]. Qed.
  Lemma c_lat_QM_check : limit_check 3 cfg_QM (Defined.ES (proj1_sig r_lat_G) (proj1_sig r_lat_QUs)) = true. Proof. vm_compute. reflexivity. Qed.
  Lemma c_lat_QM : bigO 1 (fun e => lat_G (q * q) ((q * (1 + e)) * (q * (1 + e))) X lam - lat_QU (q * q) X lam).
  Proof. refine (use 3 cfg_QM _ _ (fun e => lat_G (q * q) ((q * (1 + e)) * (q * (1 + e))) X lam) (fun e => lat_QU (q * q) X lam) _ c_lat_QM_check _ _); [vm_compute; reflexivity|intros e; exact (proj2_sig r_lat_G L (q * q) ((q * (1 + e)) * (q * (1 + e))) (q * q) ((q * x1) * (q * x1)) (q * q) (q * q) (q * q) ((q * x1) * (q * x1)) q (q * (1 + e)) q (q * x1) q q q (q * x1) X lam z X4 X5 X6)|intros e; exact (proj2_sig r_lat_QUs L (q * q) ((q * (1 + e)) * (q * (1 + e))) (q * q) ((q * x1) * (q * x1)) (q * q) (q * q) (q * q) ((q * x1) * (q * x1)) q (q * (1 + e)) q (q * x1) q q q (q * x1) X lam z X4 X5 X6)]. Qed.
  Lemma c_lat_UM_check : limit_check 3 cfg_UM (Defined.ES (proj1_sig r_lat_G) (proj1_sig r_lat_QUs)) = true. Proof. vm_compute. reflexivity. Qed.
  Lemma c_lat_UM : bigO 1 (fun e => lat_G (q * q) ((q * (1 + e)) * (q * (1 + e))) X lam - lat_QU (q * q) X lam).
  Proof. refine (use 3 cfg_UM _ _ (fun e => lat_G (q * q) ((q * (1 + e)) * (q * (1 + e))) X lam) (fun e => lat_QU (q * q) X lam) _ c_lat_UM_check _ _); [vm_compute; reflexivity|intros e; exact (proj2_sig r_lat_G L (q * q) ((q * (1 + e)) * (q * (1 + e))) ((q * (1 + e)) * (q * (1 + e))) ((q * x1) * (q * x1)) (q * q) (q * q) (q * q) ((q * x1) * (q * x1)) q (q * (1 + e)) (q * (1 + e)) (q * x1) q q q (q * x1) X lam z X4 X5 X6)|intros e; exact (proj2_sig r_lat_QUs L (q * q) ((q * (1 + e)) * (q * (1 + e))) ((q * (1 + e)) * (q * (1 + e))) ((q * x1) * (q * x1)) (q * q) (q * q) (q * q) ((q * x1) * (q * x1)) q (q * (1 + e)) (q * (1 + e)) (q * x1) q q q (q * x1) X lam z X4 X5 X6)]. Qed.
  Lemma c_lat_D_check : limit_check 1 cfg_D (Defined.ES (proj1_sig r_lat_QU) (proj1_sig r_lat_QUs)) = true. Proof. vm_compute. reflexivity. Qed.
  Lemma c_lat_D : bigO 1 (fun e => lat_QU (q * q) X lam - lat_QU (q * q) X lam).
  Proof. refine (use 1 cfg_D _ _ (fun e => lat_QU (q * q) X lam) (fun e => lat_QU (q * q) X lam) _ c_lat_D_check _ _); [vm_compute; reflexivity|intros e; exact (proj2_sig r_lat_QU L (q * q) (q * q) (q * q) ((q * (1 + e)) * (q * (1 + e))) (q * q) (q * q) (q * q) (q * q) q q q (q * (1 + e)) q q q q X lam z X4 X5 X6)|intros e; exact (proj2_sig r_lat_QUs L (q * q) (q * q) (q * q) ((q * (1 + e)) * (q * (1 + e))) (q * q) (q * q) (q * q) (q * q) q q q (q * (1 + e)) q q q q X lam z X4 X5 X6)]. Qed.
  Lemma c_lat_GQUa_check : limit_check 3 cfg_GQUa (Defined.ES (proj1_sig r_lat_G) (proj1_sig r_lat_QUs)) = true. Proof. vm_compute. reflexivity. Qed.
  Lemma c_lat_GQUa : bigO 1 (fun e => lat_G (q * q) ((q * (1 + e)) * (q * (1 + e))) X lam - lat_QU (q * q) X lam).
  Proof. refine (use 3 cfg_GQUa _ _ (fun e => lat_G (q * q) ((q * (1 + e)) * (q * (1 + e))) X lam) (fun e => lat_QU (q * q) X lam) _ c_lat_GQUa_check _ _); [vm_compute; reflexivity|intros e; exact (proj2_sig r_lat_G L (q * q) ((q * (1 + e)) * (q * (1 + e))) ((q * x1) * (q * x1)) ((q * x1) * (q * x1)) (q * q) (q * q) ((q * x1) * (q * x1)) ((q * x1) * (q * x1)) q (q * (1 + e)) (q * x1) (q * x1) q q (q * x1) (q * x1) X lam z X4 X5 X6)|intros e; exact (proj2_sig r_lat_QUs L (q * q) ((q * (1 + e)) * (q * (1 + e))) ((q * x1) * (q * x1)) ((q * x1) * (q * x1)) (q * q) (q * q) ((q * x1) * (q * x1)) ((q * x1) * (q * x1)) q (q * (1 + e)) (q * x1) (q * x1) q q (q * x1) (q * x1) X lam z X4 X5 X6)]. Qed.
  Lemma c_lat_GQUb_check : limit_check 3 cfg_GQUb (Defined.ES (proj1_sig r_lat_G) (proj1_sig r_lat_QUs)) = true. Proof. vm_compute. reflexivity. Qed.
  Lemma c_lat_GQUb : bigO 1 (fun e => lat_G (q * q) ((q * (1 + e)) * (q * (1 + e))) X lam - lat_QU (q * q) X lam).
  Proof. refine (use 3 cfg_GQUb _ _ (fun e => lat_G (q * q) ((q * (1 + e)) * (q * (1 + e))) X lam) (fun e => lat_QU (q * q) X lam) _ c_lat_GQUb_check _ _); [vm_compute; reflexivity|intros e; exact (proj2_sig r_lat_G L (q * q) ((q * (1 + e)) * (q * (1 + e))) ((q * x1) * (q * x1)) (q * q) (q * q) (q * q) ((q * x1) * (q * x1)) (q * q) q (q * (1 + e)) (q * x1) q q q (q * x1) q X lam z X4 X5 X6)|intros e; exact (proj2_sig r_lat_QUs L (q * q) ((q * (1 + e)) * (q * (1 + e))) ((q * x1) * (q * x1)) (q * q) (q * q) (q * q) ((q * x1) * (q * x1)) (q * q) q (q * (1 + e)) (q * x1) q q q (q * x1) q X lam z X4 X5 X6)]. Qed.
  Lemma c_lat_GQMa_check : limit_check 1 cfg_GQMa (Defined.ES (proj1_sig r_lat_G) (proj1_sig r_lat_Gs)) = true. Proof. vm_compute. reflexivity. Qed.
  Lemma c_lat_GQMa : bigO 1 (fun e => lat_G (q * q) ((q * x1) * (q * x1)) X lam - lat_G (q * q) ((q * x1) * (q * x1)) X lam).
  Proof. refine (use 1 cfg_GQMa _ _ (fun e => lat_G (q * q) ((q * x1) * (q * x1)) X lam) (fun e => lat_G (q * q) ((q * x1) * (q * x1)) X lam) _ c_lat_GQMa_check _ _); [vm_compute; reflexivity|intros e; exact (proj2_sig r_lat_G L (q * q) ((q * x1) * (q * x1)) ((q * (1 + e)) * (q * (1 + e))) ((q * x1) * (q * x1)) (q * q) ((q * x1) * (q * x1)) (q * q) ((q * x1) * (q * x1)) q (q * x1) (q * (1 + e)) (q * x1) q (q * x1) q (q * x1) X lam z X4 X5 X6)|intros e; exact (proj2_sig r_lat_Gs L (q * q) ((q * x1) * (q * x1)) ((q * (1 + e)) * (q * (1 + e))) ((q * x1) * (q * x1)) (q * q) ((q * x1) * (q * x1)) (q * q) ((q * x1) * (q * x1)) q (q * x1) (q * (1 + e)) (q * x1) q (q * x1) q (q * x1) X lam z X4 X5 X6)]. Qed.
  Lemma c_lat_GUMa_check : limit_check 1 cfg_GUMa (Defined.ES (proj1_sig r_lat_G) (proj1_sig r_lat_Gs)) = true. Proof. vm_compute. reflexivity. Qed.
  Lemma c_lat_GUMa : bigO 1 (fun e => lat_G ((q * x1) * (q * x1)) (q * q) X lam - lat_G ((q * x1) * (q * x1)) (q * q) X lam).
  Proof. refine (use 1 cfg_GUMa _ _ (fun e => lat_G ((q * x1) * (q * x1)) (q * q) X lam) (fun e => lat_G ((q * x1) * (q * x1)) (q * q) X lam) _ c_lat_GUMa_check _ _); [vm_compute; reflexivity|intros e; exact (proj2_sig r_lat_G L ((q * x1) * (q * x1)) (q * q) ((q * (1 + e)) * (q * (1 + e))) ((q * x1) * (q * x1)) ((q * x1) * (q * x1)) (q * q) (q * q) ((q * x1) * (q * x1)) (q * x1) q (q * (1 + e)) (q * x1) (q * x1) q q (q * x1) X lam z X4 X5 X6)|intros e; exact (proj2_sig r_lat_Gs L ((q * x1) * (q * x1)) (q * q) ((q * (1 + e)) * (q * (1 + e))) ((q * x1) * (q * x1)) ((q * x1) * (q * x1)) (q * q) (q * q) ((q * x1) * (q * x1)) (q * x1) q (q * (1 + e)) (q * x1) (q * x1) q q (q * x1) X lam z X4 X5 X6)]. Qed.
  Lemma c_yta2_GQU_check : limit_check 2 cfg_GQU (Defined.ES (proj1_sig r_yta2_G) (proj1_sig r_yta2_QUs)) = true. Proof. vm_compute. reflexivity. Qed.
  Lemma c_yta2_GQU : bigO 1 (fun e => yta2_G L (q * q) ((q * (1 + e)) * (q * (1 + e))) ((q * x1) * (q * x1)) q (q * (1 + e)) (q * x1) ((q * x2) * (q * x2)) (q * x2) X lam - yta2_QU L (q * q) ((q * x1) * (q * x1)) q (q * x1) ((q * x2) * (q * x2)) (q * x2) X lam).
  Proof. refine (use 2 cfg_GQU _ _ (fun e => yta2_G L (q * q) ((q * (1 + e)) * (q * (1 + e))) ((q * x1) * (q * x1)) q (q * (1 + e)) (q * x1) ((q * x2) * (q * x2)) (q * x2) X lam) (fun e => yta2_QU L (q * q) ((q * x1) * (q * x1)) q (q * x1) ((q * x2) * (q * x2)) (q * x2) X lam) _ c_yta2_GQU_check _ _); [vm_compute; reflexivity|intros e; exact (proj2_sig r_yta2_G L (q * q) ((q * (1 + e)) * (q * (1 + e))) ((q * x1) * (q * x1)) ((q * x2) * (q * x2)) (q * q) (q * q) ((q * x1) * (q * x1)) ((q * x2) * (q * x2)) q (q * (1 + e)) (q * x1) (q * x2) q q (q * x1) (q * x2) X lam z X4 X5 X6)|intros e; exact (proj2_sig r_yta2_QUs L (q * q) ((q * (1 + e)) * (q * (1 + e))) ((q * x1) * (q * x1)) ((q * x2) * (q * x2)) (q * q) (q * q) ((q * x1) * (q * x1)) ((q * x2) * (q * x2)) q (q * (1 + e)) (q * x1) (q * x2) q q (q * x1) (q * x2) X lam z X4 X5 X6)]. Qed.
  Lemma c_yta2_GQM_check : limit_check 4 cfg_GQM (Defined.ES (proj1_sig r_yta2_G) (proj1_sig r_yta2_QMs)) = true. Proof. vm_compute. reflexivity. Qed.
  Lemma c_yta2_GQM : bigO 1 (fun e => yta2_G L (q * q) ((q * x1) * (q * x1)) ((q * (1 + e)) * (q * (1 + e))) q (q * x1) (q * (1 + e)) ((q * x2) * (q * x2)) (q * x2) X lam - yta2_QM L (q * q) ((q * x1) * (q * x1)) q (q * x1) ((q * x2) * (q * x2)) (q * x2) X lam).
  Proof. refine (use 4 cfg_GQM _ _ (fun e => yta2_G L (q * q) ((q * x1) * (q * x1)) ((q * (1 + e)) * (q * (1 + e))) q (q * x1) (q * (1 + e)) ((q * x2) * (q * x2)) (q * x2) X lam) (fun e => yta2_QM L (q * q) ((q * x1) * (q * x1)) q (q * x1) ((q * x2) * (q * x2)) (q * x2) X lam) _ c_yta2_GQM_check _ _); [vm_compute; reflexivity|intros e; exact (proj2_sig r_yta2_G L (q * q) ((q * x1) * (q * x1)) ((q * (1 + e)) * (q * (1 + e))) ((q * x2) * (q * x2)) (q * q) ((q * x1) * (q * x1)) (q * q) ((q * x2) * (q * x2)) q (q * x1) (q * (1 + e)) (q * x2) q (q * x1) q (q * x2) X lam z X4 X5 X6)|intros e; exact (proj2_sig r_yta2_QMs L (q * q) ((q * x1) * (q * x1)) ((q * (1 + e)) * (q * (1 + e))) ((q * x2) * (q * x2)) (q * q) ((q * x1) * (q * x1)) (q * q) ((q * x2) * (q * x2)) q (q * x1) (q * (1 + e)) (q * x2) q (q * x1) q (q * x2) X lam z X4 X5 X6)]. Qed.
  Lemma c_yta2_GUM_check : limit_check 4 cfg_GUM (Defined.ES (proj1_sig r_yta2_G) (proj1_sig r_yta2_UMs)) = true. Proof. vm_compute. reflexivity. Qed.
  Lemma c_yta2_GUM : bigO 1 (fun e => yta2_G L ((q * x1) * (q * x1)) (q * q) ((q * (1 + e)) * (q * (1 + e))) (q * x1) q (q * (1 + e)) ((q * x2) * (q * x2)) (q * x2) X lam - yta2_UM L ((q * x1) * (q * x1)) (q * q) (q * x1) q ((q * x2) * (q * x2)) (q * x2) X lam).
  Proof. refine (use 4 cfg_GUM _ _ (fun e => yta2_G L ((q * x1) * (q * x1)) (q * q) ((q * (1 + e)) * (q * (1 + e))) (q * x1) q (q * (1 + e)) ((q * x2) * (q * x2)) (q * x2) X lam) (fun e => yta2_UM L ((q * x1) * (q * x1)) (q * q) (q * x1) q ((q * x2) * (q * x2)) (q * x2) X lam) _ c_yta2_GUM_check _ _); [vm_compute; reflexivity|intros e; exact (proj2_sig r_yta2_G L ((q * x1) * (q * x1)) (q * q) ((q * (1 + e)) * (q * (1 + e))) ((q * x2) * (q * x2)) ((q * x1) * (q * x1)) (q * q) (q * q) ((q * x2) * (q * x2)) (q * x1) q (q * (1 + e)) (q * x2) (q * x1) q q (q * x2) X lam z X4 X5 X6)|intros e; exact (proj2_sig r_yta2_UMs L ((q * x1) * (q * x1)) (q * q) ((q * (1 + e)) * (q * (1 + e))) ((q * x2) * (q * x2)) ((q * x1) * (q * x1)) (q * q) (q * q) ((q * x2) * (q * x2)) (q * x1) q (q * (1 + e)) (q * x2) (q * x1) q q (q * x2) X lam z X4 X5 X6)]. Qed.
  Lemma c_yta2_QU_check : limit_check 4 cfg_QU (Defined.ES (proj1_sig r_yta2_QU) (proj1_sig r_yta2_QUMs)) = true. Proof. vm_compute. reflexivity. Qed.
  Lemma c_yta2_QU : bigO 1 (fun e => yta2_QU L (q * q) ((q * (1 + e)) * (q * (1 + e))) q (q * (1 + e)) ((q * x1) * (q * x1)) (q * x1) X lam - yta2_QUM L (q * q) q ((q * x1) * (q * x1)) X lam).
  Proof. refine (use 4 cfg_QU _ _ (fun e => yta2_QU L (q * q) ((q * (1 + e)) * (q * (1 + e))) q (q * (1 + e)) ((q * x1) * (q * x1)) (q * x1) X lam) (fun e => yta2_QUM L (q * q) q ((q * x1) * (q * x1)) X lam) _ c_yta2_QU_check _ _); [vm_compute; reflexivity|intros e; exact (proj2_sig r_yta2_QU L (q * q) (q * q) ((q * (1 + e)) * (q * (1 + e))) ((q * x1) * (q * x1)) (q * q) (q * q) (q * q) ((q * x1) * (q * x1)) q q (q * (1 + e)) (q * x1) q q q (q * x1) X lam z X4 X5 X6)|intros e; exact (proj2_sig r_yta2_QUMs L (q * q) (q * q) ((q * (1 + e)) * (q * (1 + e))) ((q * x1) * (q * x1)) (q * q) (q * q) (q * q) ((q * x1) * (q * x1)) q q (q * (1 + e)) (q * x1) q q q (q * x1) X lam z X4 X5 X6)]. Qed.
  Lemma c_yta2_QM_check : limit_check 4 cfg_QM (Defined.ES (proj1_sig r_yta2_QM) (proj1_sig r_yta2_QUMs)) = true. Proof. vm_compute. reflexivity. Qed.
  Lemma c_yta2_QM : bigO 1 (fun e => yta2_QM L (q * q) ((q * (1 + e)) * (q * (1 + e))) q (q * (1 + e)) ((q * x1) * (q * x1)) (q * x1) X lam - yta2_QUM L (q * q) q ((q * x1) * (q * x1)) X lam).
  Proof. refine (use 4 cfg_QM _ _ (fun e => yta2_QM L (q * q) ((q * (1 + e)) * (q * (1 + e))) q (q * (1 + e)) ((q * x1) * (q * x1)) (q * x1) X lam) (fun e => yta2_QUM L (q * q) q ((q * x1) * (q * x1)) X lam) _ c_yta2_QM_check _ _); [vm_compute; reflexivity|intros e; exact (proj2_sig r_yta2_QM L (q * q) ((q * (1 + e)) * (q * (1 + e))) (q * q) ((q * x1) * (q * x1)) (q * q) (q * q) (q * q) ((q * x1) * (q * x1)) q (q * (1 + e)) q (q * x1) q q q (q * x1) X lam z X4 X5 X6)|intros e; exact (proj2_sig r_yta2_QUMs L (q * q) ((q * (1 + e)) * (q * (1 + e))) (q * q) ((q * x1) * (q * x1)) (q * q) (q * q) (q * q) ((q * x1) * (q * x1)) q (q * (1 + e)) q (q * x1) q q q (q * x1) X lam z X4 X5 X6)]. Qed.
  Lemma c_yta2_UM_check : limit_check 4 cfg_UM (Defined.ES (proj1_sig r_yta2_UM) (proj1_sig r_yta2_QUMs)) = true. Proof. vm_compute. reflexivity. Qed.
  Lemma c_yta2_UM : bigO 1 (fun e => yta2_UM L (q * q) ((q * (1 + e)) * (q * (1 + e))) q (q * (1 + e)) ((q * x1) * (q * x1)) (q * x1) X lam - yta2_QUM L (q * q) q ((q * x1) * (q * x1)) X lam).
  Proof. refine (use 4 cfg_UM _ _ (fun e => yta2_UM L (q * q) ((q * (1 + e)) * (q * (1 + e))) q (q * (1 + e)) ((q * x1) * (q * x1)) (q * x1) X lam) (fun e => yta2_QUM L (q * q) q ((q * x1) * (q * x1)) X lam) _ c_yta2_UM_check _ _); [vm_compute; reflexivity|intros e; exact (proj2_sig r_yta2_UM L (q * q) ((q * (1 + e)) * (q * (1 + e))) ((q * (1 + e)) * (q * (1 + e))) ((q * x1) * (q * x1)) (q * q) (q * q) (q * q) ((q * x1) * (q * x1)) q (q * (1 + e)) (q * (1 + e)) (q * x1) q q q (q * x1) X lam z X4 X5 X6)|intros e; exact (proj2_sig r_yta2_QUMs L (q * q) ((q * (1 + e)) * (q * (1 + e))) ((q * (1 + e)) * (q * (1 + e))) ((q * x1) * (q * x1)) (q * q) (q * q) (q * q) ((q * x1) * (q * x1)) q (q * (1 + e)) (q * (1 + e)) (q * x1) q q q (q * x1) X lam z X4 X5 X6)]. Qed.
  Lemma c_yta2_D_check : limit_check 1 cfg_D (Defined.ES (proj1_sig r_yta2_QUM) (proj1_sig r_yta2_Ds)) = true. Proof. vm_compute. reflexivity. Qed.
  Lemma c_yta2_D : bigO 1 (fun e => yta2_QUM L (q * q) q ((q * (1 + e)) * (q * (1 + e))) X lam - yta2_D (q * q) q X lam).
  Proof. refine (use 1 cfg_D _ _ (fun e => yta2_QUM L (q * q) q ((q * (1 + e)) * (q * (1 + e))) X lam) (fun e => yta2_D (q * q) q X lam) _ c_yta2_D_check _ _); [vm_compute; reflexivity|intros e; exact (proj2_sig r_yta2_QUM L (q * q) (q * q) (q * q) ((q * (1 + e)) * (q * (1 + e))) (q * q) (q * q) (q * q) (q * q) q q q (q * (1 + e)) q q q q X lam z X4 X5 X6)|intros e; exact (proj2_sig r_yta2_Ds L (q * q) (q * q) (q * q) ((q * (1 + e)) * (q * (1 + e))) (q * q) (q * q) (q * q) (q * q) q q q (q * (1 + e)) q q q q X lam z X4 X5 X6)]. Qed.
  Lemma c_yta2_GQUa_check : limit_check 2 cfg_GQUa (Defined.ES (proj1_sig r_yta2_G) (proj1_sig r_yta2_QUs)) = true. Proof. vm_compute. reflexivity. Qed.
  Lemma c_yta2_GQUa : bigO 1 (fun e => yta2_G L (q * q) ((q * (1 + e)) * (q * (1 + e))) ((q * x1) * (q * x1)) q (q * (1 + e)) (q * x1) ((q * x1) * (q * x1)) (q * x1) X lam - yta2_QU L (q * q) ((q * x1) * (q * x1)) q (q * x1) ((q * x1) * (q * x1)) (q * x1) X lam).
  Proof. refine (use 2 cfg_GQUa _ _ (fun e => yta2_G L (q * q) ((q * (1 + e)) * (q * (1 + e))) ((q * x1) * (q * x1)) q (q * (1 + e)) (q * x1) ((q * x1) * (q * x1)) (q * x1) X lam) (fun e => yta2_QU L (q * q) ((q * x1) * (q * x1)) q (q * x1) ((q * x1) * (q * x1)) (q * x1) X lam) _ c_yta2_GQUa_check _ _); [vm_compute; reflexivity|intros e; exact (proj2_sig r_yta2_G L (q * q) ((q * (1 + e)) * (q * (1 + e))) ((q * x1) * (q * x1)) ((q * x1) * (q * x1)) (q * q) (q * q) ((q * x1) * (q * x1)) ((q * x1) * (q * x1)) q (q * (1 + e)) (q * x1) (q * x1) q q (q * x1) (q * x1) X lam z X4 X5 X6)|intros e; exact (proj2_sig r_yta2_QUs L (q * q) ((q * (1 + e)) * (q * (1 + e))) ((q * x1) * (q * x1)) ((q * x1) * (q * x1)) (q * q) (q * q) ((q * x1) * (q * x1)) ((q * x1) * (q * x1)) q (q * (1 + e)) (q * x1) (q * x1) q q (q * x1) (q * x1) X lam z X4 X5 X6)]. Qed.
  Lemma c_yta2_GQUb_check : limit_check 2 cfg_GQUb (Defined.ES (proj1_sig r_yta2_G) (proj1_sig r_yta2_QUs)) = true. Proof. vm_compute. reflexivity. Qed.
  Lemma c_yta2_GQUb : bigO 1 (fun e => yta2_G L (q * q) ((q * (1 + e)) * (q * (1 + e))) ((q * x1) * (q * x1)) q (q * (1 + e)) (q * x1) (q * q) q X lam - yta2_QU L (q * q) ((q * x1) * (q * x1)) q (q * x1) (q * q) q X lam).
  Proof. refine (use 2 cfg_GQUb _ _ (fun e => yta2_G L (q * q) ((q * (1 + e)) * (q * (1 + e))) ((q * x1) * (q * x1)) q (q * (1 + e)) (q * x1) (q * q) q X lam) (fun e => yta2_QU L (q * q) ((q * x1) * (q * x1)) q (q * x1) (q * q) q X lam) _ c_yta2_GQUb_check _ _); [vm_compute; reflexivity|intros e; exact (proj2_sig r_yta2_G L (q * q) ((q * (1 + e)) * (q * (1 + e))) ((q * x1) * (q * x1)) (q * q) (q * q) (q * q) ((q * x1) * (q * x1)) (q * q) q (q * (1 + e)) (q * x1) q q q (q * x1) q X lam z X4 X5 X6)|intros e; exact (proj2_sig r_yta2_QUs L (q * q) ((q * (1 + e)) * (q * (1 + e))) ((q * x1) * (q * x1)) (q * q) (q * q) (q * q) ((q * x1) * (q * x1)) (q * q) q (q * (1 + e)) (q * x1) q q q (q * x1) q X lam z X4 X5 X6)]. Qed.
  Lemma c_yta2_GQMa_check : limit_check 4 cfg_GQMa (Defined.ES (proj1_sig r_yta2_G) (proj1_sig r_yta2_QMs)) = true. Proof. vm_compute. reflexivity. Qed.
  Lemma c_yta2_GQMa : bigO 1 (fun e => yta2_G L (q * q) ((q * x1) * (q * x1)) ((q * (1 + e)) * (q * (1 + e))) q (q * x1) (q * (1 + e)) ((q * x1) * (q * x1)) (q * x1) X lam - yta2_QM L (q * q) ((q * x1) * (q * x1)) q (q * x1) ((q * x1) * (q * x1)) (q * x1) X lam).
  Proof. refine (use 4 cfg_GQMa _ _ (fun e => yta2_G L (q * q) ((q * x1) * (q * x1)) ((q * (1 + e)) * (q * (1 + e))) q (q * x1) (q * (1 + e)) ((q * x1) * (q * x1)) (q * x1) X lam) (fun e => yta2_QM L (q * q) ((q * x1) * (q * x1)) q (q * x1) ((q * x1) * (q * x1)) (q * x1) X lam) _ c_yta2_GQMa_check _ _); [vm_compute; reflexivity|intros e; exact (proj2_sig r_yta2_G L (q * q) ((q * x1) * (q * x1)) ((q * (1 + e)) * (q * (1 + e))) ((q * x1) * (q * x1)) (q * q) ((q * x1) * (q * x1)) (q * q) ((q * x1) * (q * x1)) q (q * x1) (q * (1 + e)) (q * x1) q (q * x1) q (q * x1) X lam z X4 X5 X6)|intros e; exact (proj2_sig r_yta2_QMs L (q * q) ((q * x1) * (q * x1)) ((q * (1 + e)) * (q * (1 + e))) ((q * x1) * (q * x1)) (q * q) ((q * x1) * (q * x1)) (q * q) ((q * x1) * (q * x1)) q (q * x1) (q * (1 + e)) (q * x1) q (q * x1) q (q * x1) X lam z X4 X5 X6)]. Qed.
  Lemma c_yta2_GUMa_check : limit_check 4 cfg_GUMa (Defined.ES (proj1_sig r_yta2_G) (proj1_sig r_yta2_UMs)) = true. Proof. vm_compute. reflexivity. Qed.
  Lemma c_yta2_GUMa : bigO 1 (fun e => yta2_G L ((q * x1) * (q * x1)) (q * q) ((q * (1 + e)) * (q * (1 + e))) (q * x1) q (q * (1 + e)) ((q * x1) * (q * x1)) (q * x1) X lam - yta2_UM L ((q * x1) * (q * x1)) (q * q) (q * x1) q ((q * x1) * (q * x1)) (q * x1) X lam).
  Proof. refine (use 4 cfg_GUMa _ _ (fun e => yta2_G L ((q * x1) * (q * x1)) (q * q) ((q * (1 + e)) * (q * (1 + e))) (q * x1) q (q * (1 + e)) ((q * x1) * (q * x1)) (q * x1) X lam) (fun e => yta2_UM L ((q * x1) * (q * x1)) (q * q) (q * x1) q ((q * x1) * (q * x1)) (q * x1) X lam) _ c_yta2_GUMa_check _ _); [vm_compute; reflexivity|intros e; exact (proj2_sig r_yta2_G L ((q * x1) * (q * x1)) (q * q) ((q * (1 + e)) * (q * (1 + e))) ((q * x1) * (q * x1)) ((q * x1) * (q * x1)) (q * q) (q * q) ((q * x1) * (q * x1)) (q * x1) q (q * (1 + e)) (q * x1) (q * x1) q q (q * x1) X lam z X4 X5 X6)|intros e; exact (proj2_sig r_yta2_UMs L ((q * x1) * (q * x1)) (q * q) ((q * (1 + e)) * (q * (1 + e))) ((q * x1) * (q * x1)) ((q * x1) * (q * x1)) (q * q) (q * q) ((q * x1) * (q * x1)) (q * x1) q (q * (1 + e)) (q * x1) (q * x1) q q (q * x1) X lam z X4 X5 X6)]. Qed.
  Lemma c_lata_GQU_check : limit_check 4 cfg_GQU (Defined.ES (proj1_sig r_lata_G) (proj1_sig r_lata_QUs)) = true. Proof. vm_compute. reflexivity. Qed.
  Lemma c_lata_GQU : bigO 1 (fun e => lata_G L (q * q) ((q * (1 + e)) * (q * (1 + e))) ((q * x1) * (q * x1)) q (q * (1 + e)) (q * x1) X lam - lata_QU L (q * q) ((q * x1) * (q * x1)) q (q * x1) X lam).
  Proof. refine (use 4 cfg_GQU _ _ (fun e => lata_G L (q * q) ((q * (1 + e)) * (q * (1 + e))) ((q * x1) * (q * x1)) q (q * (1 + e)) (q * x1) X lam) (fun e => lata_QU L (q * q) ((q * x1) * (q * x1)) q (q * x1) X lam) _ c_lata_GQU_check _ _); [vm_compute; reflexivity|intros e; exact (proj2_sig r_lata_G L (q * q) ((q * (1 + e)) * (q * (1 + e))) ((q * x1) * (q * x1)) ((q * x2) * (q * x2)) (q * q) (q * q) ((q * x1) * (q * x1)) ((q * x2) * (q * x2)) q (q * (1 + e)) (q * x1) (q * x2) q q (q * x1) (q * x2) X lam z X4 X5 X6)|intros e; exact (proj2_sig r_lata_QUs L (q * q) ((q * (1 + e)) * (q * (1 + e))) ((q * x1) * (q * x1)) ((q * x2) * (q * x2)) (q * q) (q * q) ((q * x1) * (q * x1)) ((q * x2) * (q * x2)) q (q * (1 + e)) (q * x1) (q * x2) q q (q * x1) (q * x2) X lam z X4 X5 X6)]. Qed.
  Lemma c_lata_GQM_check : limit_check 2 cfg_GQM (Defined.ES (proj1_sig r_lata_G) (proj1_sig r_lata_QMs)) = true. Proof. vm_compute. reflexivity. Qed.
  Lemma c_lata_GQM : bigO 1 (fun e => lata_G L (q * q) ((q * x1) * (q * x1)) ((q * (1 + e)) * (q * (1 + e))) q (q * x1) (q * (1 + e)) X lam - lata_QM L (q * q) ((q * x1) * (q * x1)) q (q * x1) X lam).
  Proof. refine (use 2 cfg_GQM _ _ (fun e => lata_G L (q * q) ((q * x1) * (q * x1)) ((q * (1 + e)) * (q * (1 + e))) q (q * x1) (q * (1 + e)) X lam) (fun e => lata_QM L (q * q) ((q * x1) * (q * x1)) q (q * x1) X lam) _ c_lata_GQM_check _ _); [vm_compute; reflexivity|intros e; exact (proj2_sig r_lata_G L (q * q) ((q * x1) * (q * x1)) ((q * (1 + e)) * (q * (1 + e))) ((q * x2) * (q * x2)) (q * q) ((q * x1) * (q * x1)) (q * q) ((q * x2) * (q * x2)) q (q * x1) (q * (1 + e)) (q * x2) q (q * x1) q (q * x2) X lam z X4 X5 X6)|intros e; exact (proj2_sig r_lata_QMs L (q * q) ((q * x1) * (q * x1)) ((q * (1 + e)) * (q * (1 + e))) ((q * x2) * (q * x2)) (q * q) ((q * x1) * (q * x1)) (q * q) ((q * x2) * (q * x2)) q (q * x1) (q * (1 + e)) (q * x2) q (q * x1) q (q * x2) X lam z X4 X5 X6)]. Qed.
  Lemma c_lata_GUM_check : limit_check 2 cfg_GUM (Defined.ES (proj1_sig r_lata_G) (proj1_sig r_lata_UMs)) = true. Proof. vm_compute. reflexivity. Qed.
  Lemma c_lata_GUM : bigO 1 (fun e => lata_G L ((q * x1) * (q * x1)) (q * q) ((q * (1 + e)) * (q * (1 + e))) (q * x1) q (q * (1 + e)) X lam - lata_UM L ((q * x1) * (q * x1)) (q * q) (q * x1) q X lam).
  Proof. refine (use 2 cfg_GUM _ _ (fun e => lata_G L ((q * x1) * (q * x1)) (q * q) ((q * (1 + e)) * (q * (1 + e))) (q * x1) q (q * (1 + e)) X lam) (fun e => lata_UM L ((q * x1) * (q * x1)) (q * q) (q * x1) q X lam) _ c_lata_GUM_check _ _); [vm_compute; reflexivity|intros e; exact (proj2_sig r_lata_G L ((q * x1) * (q * x1)) (q * q) ((q * (1 + e)) * (q * (1 + e))) ((q * x2) * (q * x2)) ((q * x1) * (q * x1)) (q * q) (q * q) ((q * x2) * (q * x2)) (q * x1) q (q * (1 + e)) (q * x2) (q * x1) q q (q * x2) X lam z X4 X5 X6)|intros e; exact (proj2_sig r_lata_UMs L ((q * x1) * (q * x1)) (q * q) ((q * (1 + e)) * (q * (1 + e))) ((q * x2) * (q * x2)) ((q * x1) * (q * x1)) (q * q) (q * q) ((q * x2) * (q * x2)) (q * x1) q (q * (1 + e)) (q * x2) (q * x1) q q (q * x2) X lam z X4 X5 X6)]. Qed.
  Lemma c_lata_QU_check : limit_check 2 cfg_QU (Defined.ES (proj1_sig r_lata_QU) (proj1_sig r_lata_QUMs)) = true. Proof. vm_compute. reflexivity. Qed.
  Lemma c_lata_QU : bigO 1 (fun e => lata_QU L (q * q) ((q * (1 + e)) * (q * (1 + e))) q (q * (1 + e)) X lam - lata_QUM (q * q) q X lam).
  Proof. refine (use 2 cfg_QU _ _ (fun e => lata_QU L (q * q) ((q * (1 + e)) * (q * (1 + e))) q (q * (1 + e)) X lam) (fun e => lata_QUM (q * q) q X lam) _ c_lata_QU_check _ _); [vm_compute; reflexivity|intros e; exact (proj2_sig r_lata_QU L (q * q) (q * q) ((q * (1 + e)) * (q * (1 + e))) ((q * x1) * (q * x1)) (q * q) (q * q) (q * q) ((q * x1) * (q * x1)) q q (q * (1 + e)) (q * x1) q q q (q * x1) X lam z X4 X5 X6)|intros e; exact (proj2_sig r_lata_QUMs L (q * q) (q * q) ((q * (1 + e)) * (q * (1 + e))) ((q * x1) * (q * x1)) (q * q) (q * q) (q * q) ((q * x1) * (q * x1)) q q (q * (1 + e)) (q * x1) q q q (q * x1) X lam z X4 X5 X6)]. Qed.
  Lemma c_lata_QM_check : limit_check 5 cfg_QM (Defined.ES (proj1_sig r_lata_QM) (proj1_sig r_lata_QUMs)) = true. Proof. vm_compute. reflexivity. Qed.
  Lemma c_lata_QM : bigO 1 (fun e => lata_QM L (q * q) ((q * (1 + e)) * (q * (1 + e))) q (q * (1 + e)) X lam - lata_QUM (q * q) q X lam).
  Proof. refine (use 5 cfg_QM _ _ (fun e => lata_QM L (q * q) ((q * (1 + e)) * (q * (1 + e))) q (q * (1 + e)) X lam) (fun e => lata_QUM (q * q) q X lam) _ c_lata_QM_check _ _); [vm_compute; reflexivity|intros e; exact (proj2_sig r_lata_QM L (q * q) ((q * (1 + e)) * (q * (1 + e))) (q * q) ((q * x1) * (q * x1)) (q * q) (q * q) (q * q) ((q * x1) * (q * x1)) q (q * (1 + e)) q (q * x1) q q q (q * x1) X lam z X4 X5 X6)|intros e; exact (proj2_sig r_lata_QUMs L (q * q) ((q * (1 + e)) * (q * (1 + e))) (q * q) ((q * x1) * (q * x1)) (q * q) (q * q) (q * q) ((q * x1) * (q * x1)) q (q * (1 + e)) q (q * x1) q q q (q * x1) X lam z X4 X5 X6)]. Qed.
  Lemma c_lata_UM_check : limit_check 5 cfg_UM (Defined.ES (proj1_sig r_lata_UM) (proj1_sig r_lata_QUMs)) = true. Proof. vm_compute. reflexivity. Qed.
  Lemma c_lata_UM : bigO 1 (fun e => lata_UM L (q * q) ((q * (1 + e)) * (q * (1 + e))) q (q * (1 + e)) X lam - lata_QUM (q * q) q X lam).
  Proof. refine (use 5 cfg_UM _ _ (fun e => lata_UM L (q * q) ((q * (1 + e)) * (q * (1 + e))) q (q * (1 + e)) X lam) (fun e => lata_QUM (q * q) q X lam) _ c_lata_UM_check _ _); [vm_compute; reflexivity|intros e; exact (proj2_sig r_lata_UM L (q * q) ((q * (1 + e)) * (q * (1 + e))) ((q * (1 + e)) * (q * (1 + e))) ((q * x1) * (q * x1)) (q * q) (q * q) (q * q) ((q * x1) * (q * x1)) q (q * (1 + e)) (q * (1 + e)) (q * x1) q q q (q * x1) X lam z X4 X5 X6)|intros e; exact (proj2_sig r_lata_QUMs L (q * q) ((q * (1 + e)) * (q * (1 + e))) ((q * (1 + e)) * (q * (1 + e))) ((q * x1) * (q * x1)) (q * q) (q * q) (q * q) ((q * x1) * (q * x1)) q (q * (1 + e)) (q * (1 + e)) (q * x1) q q q (q * x1) X lam z X4 X5 X6)]. Qed.
  Lemma c_lata_D_check : limit_check 1 cfg_D (Defined.ES (proj1_sig r_lata_QUM) (proj1_sig r_lata_QUMs)) = true. Proof. vm_compute. reflexivity. Qed.
  Lemma c_lata_D : bigO 1 (fun e => lata_QUM (q * q) q X lam - lata_QUM (q * q) q X lam).
  Proof. refine (use 1 cfg_D _ _ (fun e => lata_QUM (q * q) q X lam) (fun e => lata_QUM (q * q) q X lam) _ c_lata_D_check _ _); [vm_compute; reflexivity|intros e; exact (proj2_sig r_lata_QUM L (q * q) (q * q) (q * q) ((q * (1 + e)) * (q * (1 + e))) (q * q) (q * q) (q * q) (q * q) q q q (q * (1 + e)) q q q q X lam z X4 X5 X6)|intros e; exact (proj2_sig r_lata_QUMs L (q * q) (q * q) (q * q) ((q * (1 + e)) * (q * (1 + e))) (q * q) (q * q) (q * q) (q * q) q q q (q * (1 + e)) q q q q X lam z X4 X5 X6)]. Qed.
  Lemma c_lata_GQUa_check : limit_check 4 cfg_GQUa (Defined.ES (proj1_sig r_lata_G) (proj1_sig r_lata_QUs)) = true. Proof. vm_compute. reflexivity. Qed.
  Lemma c_lata_GQUa : bigO 1 (fun e => lata_G L (q * q) ((q * (1 + e)) * (q * (1 + e))) ((q * x1) * (q * x1)) q (q * (1 + e)) (q * x1) X lam - lata_QU L (q * q) ((q * x1) * (q * x1)) q (q * x1) X lam).
  Proof. refine (use 4 cfg_GQUa _ _ (fun e => lata_G L (q * q) ((q * (1 + e)) * (q * (1 + e))) ((q * x1) * (q * x1)) q (q * (1 + e)) (q * x1) X lam) (fun e => lata_QU L (q * q) ((q * x1) * (q * x1)) q (q * x1) X lam) _ c_lata_GQUa_check _ _); [vm_compute; reflexivity|intros e; exact (proj2_sig r_lata_G L (q * q) ((q * (1 + e)) * (q * (1 + e))) ((q * x1) * (q * x1)) ((q * x1) * (q * x1)) (q * q) (q * q) ((q * x1) * (q * x1)) ((q * x1) * (q * x1)) q (q * (1 + e)) (q * x1) (q * x1) q q (q * x1) (q * x1) X lam z X4 X5 X6)|intros e; exact (proj2_sig r_lata_QUs L (q * q) ((q * (1 + e)) * (q * (1 + e))) ((q * x1) * (q * x1)) ((q * x1) * (q * x1)) (q * q) (q * q) ((q * x1) * (q * x1)) ((q * x1) * (q * x1)) q (q * (1 + e)) (q * x1) (q * x1) q q (q * x1) (q * x1) X lam z X4 X5 X6)]. Qed.
  Lemma c_lata_GQUb_check : limit_check 4 cfg_GQUb (Defined.ES (proj1_sig r_lata_G) (proj1_sig r_lata_QUs)) = true. Proof. vm_compute. reflexivity. Qed.
  Lemma c_lata_GQUb : bigO 1 (fun e => lata_G L (q * q) ((q * (1 + e)) * (q * (1 + e))) ((q * x1) * (q * x1)) q (q * (1 + e)) (q * x1) X lam - lata_QU L (q * q) ((q * x1) * (q * x1)) q (q * x1) X lam).
  Proof. refine (use 4 cfg_GQUb _ _ (fun e => lata_G L (q * q) ((q * (1 + e)) * (q * (1 + e))) ((q * x1) * (q * x1)) q (q * (1 + e)) (q * x1) X lam) (fun e => lata_QU L (q * q) ((q * x1) * (q * x1)) q (q * x1) X lam) _ c_lata_GQUb_check _ _); [vm_compute; reflexivity|intros e; exact (proj2_sig r_lata_G L (q * q) ((q * (1 + e)) * (q * (1 + e))) ((q * x1) * (q * x1)) (q * q) (q * q) (q * q) ((q * x1) * (q * x1)) (q * q) q (q * (1 + e)) (q * x1) q q q (q * x1) q X lam z X4 X5 X6)|intros e; exact (proj2_sig r_lata_QUs L (q * q) ((q * (1 + e)) * (q * (1 + e))) ((q * x1) * (q * x1)) (q * q) (q * q) (q * q) ((q * x1) * (q * x1)) (q * q) q (q * (1 + e)) (q * x1) q q q (q * x1) q X lam z X4 X5 X6)]. Qed.
  Lemma c_lata_GQMa_check : limit_check 2 cfg_GQMa (Defined.ES (proj1_sig r_lata_G) (proj1_sig r_lata_QMs)) = true. Proof. vm_compute. reflexivity. Qed.
  Lemma c_lata_GQMa : bigO 1 (fun e => lata_G L (q * q) ((q * x1) * (q * x1)) ((q * (1 + e)) * (q * (1 + e))) q (q * x1) (q * (1 + e)) X lam - lata_QM L (q * q) ((q * x1) * (q * x1)) q (q * x1) X lam).
  Proof. refine (use 2 cfg_GQMa _ _ (fun e => lata_G L (q * q) ((q * x1) * (q * x1)) ((q * (1 + e)) * (q * (1 + e))) q (q * x1) (q * (1 + e)) X lam) (fun e => lata_QM L (q * q) ((q * x1) * (q * x1)) q (q * x1) X lam) _ c_lata_GQMa_check _ _); [vm_compute; reflexivity|intros e; exact (proj2_sig r_lata_G L (q * q) ((q * x1) * (q * x1)) ((q * (1 + e)) * (q * (1 + e))) ((q * x1) * (q * x1)) (q * q) ((q * x1) * (q * x1)) (q * q) ((q * x1) * (q * x1)) q (q * x1) (q * (1 + e)) (q * x1) q (q * x1) q (q * x1) X lam z X4 X5 X6)|intros e; exact (proj2_sig r_lata_QMs L (q * q) ((q * x1) * (q * x1)) ((q * (1 + e)) * (q * (1 + e))) ((q * x1) * (q * x1)) (q * q) ((q * x1) * (q * x1)) (q * q) ((q * x1) * (q * x1)) q (q * x1) (q * (1 + e)) (q * x1) q (q * x1) q (q * x1) X lam z X4 X5 X6)]. Qed.
  Lemma c_lata_GUMa_check : limit_check 2 cfg_GUMa (Defined.ES (proj1_sig r_lata_G) (proj1_sig r_lata_UMs)) = true. Proof. vm_compute. reflexivity. Qed.
  Lemma c_lata_GUMa : bigO 1 (fun e => lata_G L ((q * x1) * (q * x1)) (q * q) ((q * (1 + e)) * (q * (1 + e))) (q * x1) q (q * (1 + e)) X lam - lata_UM L ((q * x1) * (q * x1)) (q * q) (q * x1) q X lam).
  Proof. refine (use 2 cfg_GUMa _ _ (fun e => lata_G L ((q * x1) * (q * x1)) (q * q) ((q * (1 + e)) * (q * (1 + e))) (q * x1) q (q * (1 + e)) X lam) (fun e => lata_UM L ((q * x1) * (q * x1)) (q * q) (q * x1) q X lam) _ c_lata_GUMa_check _ _); [vm_compute; reflexivity|intros e; exact (proj2_sig r_lata_G L ((q * x1) * (q * x1)) (q * q) ((q * (1 + e)) * (q * (1 + e))) ((q * x1) * (q * x1)) ((q * x1) * (q * x1)) (q * q) (q * q) ((q * x1) * (q * x1)) (q * x1) q (q * (1 + e)) (q * x1) (q * x1) q q (q * x1) X lam z X4 X5 X6)|intros e; exact (proj2_sig r_lata_UMs L ((q * x1) * (q * x1)) (q * q) ((q * (1 + e)) * (q * (1 + e))) ((q * x1) * (q * x1)) ((q * x1) * (q * x1)) (q * q) (q * q) ((q * x1) * (q * x1)) (q * x1) q (q * (1 + e)) (q * x1) (q * x1) q q (q * x1) X lam z X4 X5 X6)]. Qed.
  Lemma c_lata2_GQU_check : limit_check 4 cfg_GQU (Defined.ES (proj1_sig r_lata2_G) (proj1_sig r_lata2_QUs)) = true. Proof. vm_compute. reflexivity. Qed.
  Lemma c_lata2_GQU : bigO 1 (fun e => lata2_G L (q * q) ((q * (1 + e)) * (q * (1 + e))) ((q * x1) * (q * x1)) q (q * (1 + e)) (q * x1) ((q * x2) * (q * x2)) X X4 X5 z lam - lata2_QU L (q * q) ((q * x1) * (q * x1)) q (q * x1) ((q * x2) * (q * x2)) X X4 X5 z lam).
  Proof. refine (use 4 cfg_GQU _ _ (fun e => lata2_G L (q * q) ((q * (1 + e)) * (q * (1 + e))) ((q * x1) * (q * x1)) q (q * (1 + e)) (q * x1) ((q * x2) * (q * x2)) X X4 X5 z lam) (fun e => lata2_QU L (q * q) ((q * x1) * (q * x1)) q (q * x1) ((q * x2) * (q * x2)) X X4 X5 z lam) _ c_lata2_GQU_check _ _); [vm_compute; reflexivity|intros e; exact (proj2_sig r_lata2_G L (q * q) ((q * (1 + e)) * (q * (1 + e))) ((q * x1) * (q * x1)) ((q * x2) * (q * x2)) (q * q) (q * q) ((q * x1) * (q * x1)) ((q * x2) * (q * x2)) q (q * (1 + e)) (q * x1) (q * x2) q q (q * x1) (q * x2) X lam z X4 X5 X6)|intros e; exact (proj2_sig r_lata2_QUs L (q * q) ((q * (1 + e)) * (q * (1 + e))) ((q * x1) * (q * x1)) ((q * x2) * (q * x2)) (q * q) (q * q) ((q * x1) * (q * x1)) ((q * x2) * (q * x2)) q (q * (1 + e)) (q * x1) (q * x2) q q (q * x1) (q * x2) X lam z X4 X5 X6)]. Qed.
  Lemma c_lata2_GQM_check : limit_check 3 cfg_GQM (Defined.ES (proj1_sig r_lata2_G) (proj1_sig r_lata2_QMs)) = true. Proof. vm_compute. reflexivity. Qed.
  Lemma c_lata2_GQM : bigO 1 (fun e => lata2_G L (q * q) ((q * x1) * (q * x1)) ((q * (1 + e)) * (q * (1 + e))) q (q * x1) (q * (1 + e)) ((q * x2) * (q * x2)) X X4 X5 z lam - lata2_QM L (q * q) ((q * x1) * (q * x1)) q (q * x1) ((q * x2) * (q * x2)) X X4 X5 z lam).
  Proof. refine (use 3 cfg_GQM _ _ (fun e => lata2_G L (q * q) ((q * x1) * (q * x1)) ((q * (1 + e)) * (q * (1 + e))) q (q * x1) (q * (1 + e)) ((q * x2) * (q * x2)) X X4 X5 z lam) (fun e => lata2_QM L (q * q) ((q * x1) * (q * x1)) q (q * x1) ((q * x2) * (q * x2)) X X4 X5 z lam) _ c_lata2_GQM_check _ _); [vm_compute; reflexivity|intros e; exact (proj2_sig r_lata2_G L (q * q) ((q * x1) * (q * x1)) ((q * (1 + e)) * (q * (1 + e))) ((q * x2) * (q * x2)) (q * q) ((q * x1) * (q * x1)) (q * q) ((q * x2) * (q * x2)) q (q * x1) (q * (1 + e)) (q * x2) q (q * x1) q (q * x2) X lam z X4 X5 X6)|intros e; exact (proj2_sig r_lata2_QMs L (q * q) ((q * x1) * (q * x1)) ((q * (1 + e)) * (q * (1 + e))) ((q * x2) * (q * x2)) (q * q) ((q * x1) * (q * x1)) (q * q) ((q * x2) * (q * x2)) q (q * x1) (q * (1 + e)) (q * x2) q (q * x1) q (q * x2) X lam z X4 X5 X6)]. Qed.
  Lemma c_lata2_GUM_check : limit_check 3 cfg_GUM (Defined.ES (proj1_sig r_lata2_G) (proj1_sig r_lata2_UMs)) = true. Proof. vm_compute. reflexivity. Qed.
  Lemma c_lata2_GUM : bigO 1 (fun e => lata2_G L ((q * x1) * (q * x1)) (q * q) ((q * (1 + e)) * (q * (1 + e))) (q * x1) q (q * (1 + e)) ((q * x2) * (q * x2)) X X4 X5 z lam - lata2_UM L ((q * x1) * (q * x1)) (q * q) (q * x1) q ((q * x2) * (q * x2)) X X4 X5 z lam).
  Proof. refine (use 3 cfg_GUM _ _ (fun e => lata2_G L ((q * x1) * (q * x1)) (q * q) ((q * (1 + e)) * (q * (1 + e))) (q * x1) q (q * (1 + e)) ((q * x2) * (q * x2)) X X4 X5 z lam) (fun e => lata2_UM L ((q * x1) * (q * x1)) (q * q) (q * x1) q ((q * x2) * (q * x2)) X X4 X5 z lam) _ c_lata2_GUM_check _ _); [vm_compute; reflexivity|intros e; exact (proj2_sig r_lata2_G L ((q * x1) * (q * x1)) (q * q) ((q * (1 + e)) * (q * (1 + e))) ((q * x2) * (q * x2)) ((q * x1) * (q * x1)) (q * q) (q * q) ((q * x2) * (q * x2)) (q * x1) q (q * (1 + e)) (q * x2) (q * x1) q q (q * x2) X lam z X4 X5 X6)|intros e; exact (proj2_sig r_lata2_UMs L ((q * x1) * (q * x1)) (q * q) ((q * (1 + e)) * (q * (1 + e))) ((q * x2) * (q * x2)) ((q * x1) * (q * x1)) (q * q) (q * q) ((q * x2) * (q * x2)) (q * x1) q (q * (1 + e)) (q * x2) (q * x1) q q (q * x2) X lam z X4 X5 X6)]. Qed.
  Lemma c_lata2_QU_check : limit_check 3 cfg_QU (Defined.ES (proj1_sig r_lata2_QU) (proj1_sig r_lata2_QUMs)) = true. Proof. vm_compute. reflexivity. Qed.
  Lemma c_lata2_QU : bigO 1 (fun e => lata2_QU L (q * q) ((q * (1 + e)) * (q * (1 + e))) q (q * (1 + e)) ((q * x1) * (q * x1)) X X4 X5 z lam - lata2_QUM (q * q) q ((q * x1) * (q * x1)) X X4 X5 z lam).
  Proof. refine (use 3 cfg_QU _ _ (fun e => lata2_QU L (q * q) ((q * (1 + e)) * (q * (1 + e))) q (q * (1 + e)) ((q * x1) * (q * x1)) X X4 X5 z lam) (fun e => lata2_QUM (q * q) q ((q * x1) * (q * x1)) X X4 X5 z lam) _ c_lata2_QU_check _ _); [vm_compute; reflexivity|intros e; exact (proj2_sig r_lata2_QU L (q * q) (q * q) ((q * (1 + e)) * (q * (1 + e))) ((q * x1) * (q * x1)) (q * q) (q * q) (q * q) ((q * x1) * (q * x1)) q q (q * (1 + e)) (q * x1) q q q (q * x1) X lam z X4 X5 X6)|intros e; exact (proj2_sig r_lata2_QUMs L (q * q) (q * q) ((q * (1 + e)) * (q * (1 + e))) ((q * x1) * (q * x1)) (q * q) (q * q) (q * q) ((q * x1) * (q * x1)) q q (q * (1 + e)) (q * x1) q q q (q * x1) X lam z X4 X5 X6)]. Qed.
  Lemma c_lata2_QM_check : limit_check 6 cfg_QM (Defined.ES (proj1_sig r_lata2_QM) (proj1_sig r_lata2_QUMs)) = true. Proof. vm_compute. reflexivity. Qed.
  Lemma c_lata2_QM : bigO 1 (fun e => lata2_QM L (q * q) ((q * (1 + e)) * (q * (1 + e))) q (q * (1 + e)) ((q * x1) * (q * x1)) X X4 X5 z lam - lata2_QUM (q * q) q ((q * x1) * (q * x1)) X X4 X5 z lam).
  Proof. refine (use 6 cfg_QM _ _ (fun e => lata2_QM L (q * q) ((q * (1 + e)) * (q * (1 + e))) q (q * (1 + e)) ((q * x1) * (q * x1)) X X4 X5 z lam) (fun e => lata2_QUM (q * q) q ((q * x1) * (q * x1)) X X4 X5 z lam) _ c_lata2_QM_check _ _); [vm_compute; reflexivity|intros e; exact (proj2_sig r_lata2_QM L (q * q) ((q * (1 + e)) * (q * (1 + e))) (q * q) ((q * x1) * (q * x1)) (q * q) (q * q) (q * q) ((q * x1) * (q * x1)) q (q * (1 + e)) q (q * x1) q q q (q * x1) X lam z X4 X5 X6)|intros e; exact (proj2_sig r_lata2_QUMs L (q * q) ((q * (1 + e)) * (q * (1 + e))) (q * q) ((q * x1) * (q * x1)) (q * q) (q * q) (q * q) ((q * x1) * (q * x1)) q (q * (1 + e)) q (q * x1) q q q (q * x1) X lam z X4 X5 X6)]. Qed.
  Lemma c_lata2_UM_check : limit_check 6 cfg_UM (Defined.ES (proj1_sig r_lata2_UM) (proj1_sig r_lata2_QUMs)) = true. Proof. vm_compute. reflexivity. Qed.
  Lemma c_lata2_UM : bigO 1 (fun e => lata2_UM L (q * q) ((q * (1 + e)) * (q * (1 + e))) q (q * (1 + e)) ((q * x1) * (q * x1)) X X4 X5 z lam - lata2_QUM (q * q) q ((q * x1) * (q * x1)) X X4 X5 z lam).
  Proof. refine (use 6 cfg_UM _ _ (fun e => lata2_UM L (q * q) ((q * (1 + e)) * (q * (1 + e))) q (q * (1 + e)) ((q * x1) * (q * x1)) X X4 X5 z lam) (fun e => lata2_QUM (q * q) q ((q * x1) * (q * x1)) X X4 X5 z lam) _ c_lata2_UM_check _ _); [vm_compute; reflexivity|intros e; exact (proj2_sig r_lata2_UM L (q * q) ((q * (1 + e)) * (q * (1 + e))) ((q * (1 + e)) * (q * (1 + e))) ((q * x1) * (q * x1)) (q * q) (q * q) (q * q) ((q * x1) * (q * x1)) q (q * (1 + e)) (q * (1 + e)) (q * x1) q q q (q * x1) X lam z X4 X5 X6)|intros e; exact (proj2_sig r_lata2_QUMs L (q * q) ((q * (1 + e)) * (q * (1 + e))) ((q * (1 + e)) * (q * (1 + e))) ((q * x1) * (q * x1)) (q * q) (q * q) (q * q) ((q * x1) * (q * x1)) q (q * (1 + e)) (q * (1 + e)) (q * x1) q q q (q * x1) X lam z X4 X5 X6)]. Qed.
  Lemma c_lata2_D_check : limit_check 1 cfg_D (Defined.ES (proj1_sig r_lata2_QUM) (proj1_sig r_lata2_QUMs)) = true. Proof. vm_compute. reflexivity. Qed.
  Lemma c_lata2_D : bigO 1 (fun e => lata2_QUM (q * q) q ((q * (1 + e)) * (q * (1 + e))) X X4 X5 z lam - lata2_QUM (q * q) q (q * q) X X4 X5 z lam).
  Proof. refine (use 1 cfg_D _ _ (fun e => lata2_QUM (q * q) q ((q * (1 + e)) * (q * (1 + e))) X X4 X5 z lam) (fun e => lata2_QUM (q * q) q (q * q) X X4 X5 z lam) _ c_lata2_D_check _ _); [vm_compute; reflexivity|intros e; exact (proj2_sig r_lata2_QUM L (q * q) (q * q) (q * q) ((q * (1 + e)) * (q * (1 + e))) (q * q) (q * q) (q * q) (q * q) q q q (q * (1 + e)) q q q q X lam z X4 X5 X6)|intros e; exact (proj2_sig r_lata2_QUMs L (q * q) (q * q) (q * q) ((q * (1 + e)) * (q * (1 + e))) (q * q) (q * q) (q * q) (q * q) q q q (q * (1 + e)) q q q q X lam z X4 X5 X6)]. Qed.
  Lemma c_lata2_GQUa_check : limit_check 4 cfg_GQUa (Defined.ES (proj1_sig r_lata2_G) (proj1_sig r_lata2_QUs)) = true. Proof. vm_compute. reflexivity. Qed.
  Lemma c_lata2_GQUa : bigO 1 (fun e => lata2_G L (q * q) ((q * (1 + e)) * (q * (1 + e))) ((q * x1) * (q * x1)) q (q * (1 + e)) (q * x1) ((q * x1) * (q * x1)) X X4 X5 z lam - lata2_QU L (q * q) ((q * x1) * (q * x1)) q (q * x1) ((q * x1) * (q * x1)) X X4 X5 z lam).
  Proof. refine (use 4 cfg_GQUa _ _ (fun e => lata2_G L (q * q) ((q * (1 + e)) * (q * (1 + e))) ((q * x1) * (q * x1)) q (q * (1 + e)) (q * x1) ((q * x1) * (q * x1)) X X4 X5 z lam) (fun e => lata2_QU L (q * q) ((q * x1) * (q * x1)) q (q * x1) ((q * x1) * (q * x1)) X X4 X5 z lam) _ c_lata2_GQUa_check _ _); [vm_compute; reflexivity|intros e; exact (proj2_sig r_lata2_G L (q * q) ((q * (1 + e)) * (q * (1 + e))) ((q * x1) * (q * x1)) ((q * x1) * (q * x1)) (q * q) (q * q) ((q * x1) * (q * x1)) ((q * x1) * (q * x1)) q (q * (1 + e)) (q * x1) (q * x1) q q (q * x1) (q * x1) X lam z X4 X5 X6)|intros e; exact (proj2_sig r_lata2_QUs L (q * q) ((q * (1 + e)) * (q * (1 + e))) ((q * x1) * (q * x1)) ((q * x1) * (q * x1)) (q * q) (q * q) ((q * x1) * (q * x1)) ((q * x1) * (q * x1)) q (q * (1 + e)) (q * x1) (q * x1) q q (q * x1) (q * x1) X lam z X4 X5 X6)]. Qed.
  Lemma c_lata2_GQUb_check : limit_check 4 cfg_GQUb (Defined.ES (proj1_sig r_lata2_G) (proj1_sig r_lata2_QUs)) = true. Proof. vm_compute. reflexivity. Qed.
  Lemma c_lata2_GQUb : bigO 1 (fun e => lata2_G L (q * q) ((q * (1 + e)) * (q * (1 + e))) ((q * x1) * (q * x1)) q (q * (1 + e)) (q * x1) (q * q) X X4 X5 z lam - lata2_QU L (q * q) ((q * x1) * (q * x1)) q (q * x1) (q * q) X X4 X5 z lam).
  Proof. refine (use 4 cfg_GQUb _ _ (fun e => lata2_G L (q * q) ((q * (1 + e)) * (q * (1 + e))) ((q * x1) * (q * x1)) q (q * (1 + e)) (q * x1) (q * q) X X4 X5 z lam) (fun e => lata2_QU L (q * q) ((q * x1) * (q * x1)) q (q * x1) (q * q) X X4 X5 z lam) _ c_lata2_GQUb_check _ _); [vm_compute; reflexivity|intros e; exact (proj2_sig r_lata2_G L (q * q) ((q * (1 + e)) * (q * (1 + e))) ((q * x1) * (q * x1)) (q * q) (q * q) (q * q) ((q * x1) * (q * x1)) (q * q) q (q * (1 + e)) (q * x1) q q q (q * x1) q X lam z X4 X5 X6)|intros e; exact (proj2_sig r_lata2_QUs L (q * q) ((q * (1 + e)) * (q * (1 + e))) ((q * x1) * (q * x1)) (q * q) (q * q) (q * q) ((q * x1) * (q * x1)) (q * q) q (q * (1 + e)) (q * x1) q q q (q * x1) q X lam z X4 X5 X6)]. Qed.
  Lemma c_lata2_GQMa_check : limit_check 3 cfg_GQMa (Defined.ES (proj1_sig r_lata2_G) (proj1_sig r_lata2_QMs)) = true. Proof. vm_compute. reflexivity. Qed.
  Lemma c_lata2_GQMa : bigO 1 (fun e => lata2_G L (q * q) ((q * x1) * (q * x1)) ((q * (1 + e)) * (q * (1 + e))) q (q * x1) (q * (1 + e)) ((q * x1) * (q * x1)) X X4 X5 z lam - lata2_QM L (q * q) ((q * x1) * (q * x1)) q (q * x1) ((q * x1) * (q * x1)) X X4 X5 z lam).
  Proof. refine (use 3 cfg_GQMa _ _ (fun e => lata2_G L (q * q) ((q * x1) * (q * x1)) ((q * (1 + e)) * (q * (1 + e))) q (q * x1) (q * (1 + e)) ((q * x1) * (q * x1)) X X4 X5 z lam) (fun e => lata2_QM L (q * q) ((q * x1) * (q * x1)) q (q * x1) ((q * x1) * (q * x1)) X X4 X5 z lam) _ c_lata2_GQMa_check _ _); [vm_compute; reflexivity|intros e; exact (proj2_sig r_lata2_G L (q * q) ((q * x1) * (q * x1)) ((q * (1 + e)) * (q * (1 + e))) ((q * x1) * (q * x1)) (q * q) ((q * x1) * (q * x1)) (q * q) ((q * x1) * (q * x1)) q (q * x1) (q * (1 + e)) (q * x1) q (q * x1) q (q * x1) X lam z X4 X5 X6)|intros e; exact (proj2_sig r_lata2_QMs L (q * q) ((q * x1) * (q * x1)) ((q * (1 + e)) * (q * (1 + e))) ((q * x1) * (q * x1)) (q * q) ((q * x1) * (q * x1)) (q * q) ((q * x1) * (q * x1)) q (q * x1) (q * (1 + e)) (q * x1) q (q * x1) q (q * x1) X lam z X4 X5 X6)]. Qed.
  Lemma c_lata2_GUMa_check : limit_check 3 cfg_GUMa (Defined.ES (proj1_sig r_lata2_G) (proj1_sig r_lata2_UMs)) = true. Proof. vm_compute. reflexivity. Qed.
  Lemma c_lata2_GUMa : bigO 1 (fun e => lata2_G L ((q * x1) * (q * x1)) (q * q) ((q * (1 + e)) * (q * (1 + e))) (q * x1) q (q * (1 + e)) ((q * x1) * (q * x1)) X X4 X5 z lam - lata2_UM L ((q * x1) * (q * x1)) (q * q) (q * x1) q ((q * x1) * (q * x1)) X X4 X5 z lam).
  Proof. refine (use 3 cfg_GUMa _ _ (fun e => lata2_G L ((q * x1) * (q * x1)) (q * q) ((q * (1 + e)) * (q * (1 + e))) (q * x1) q (q * (1 + e)) ((q * x1) * (q * x1)) X X4 X5 z lam) (fun e => lata2_UM L ((q * x1) * (q * x1)) (q * q) (q * x1) q ((q * x1) * (q * x1)) X X4 X5 z lam) _ c_lata2_GUMa_check _ _); [vm_compute; reflexivity|intros e; exact (proj2_sig r_lata2_G L ((q * x1) * (q * x1)) (q * q) ((q * (1 + e)) * (q * (1 + e))) ((q * x1) * (q * x1)) ((q * x1) * (q * x1)) (q * q) (q * q) ((q * x1) * (q * x1)) (q * x1) q (q * (1 + e)) (q * x1) (q * x1) q q (q * x1) X lam z X4 X5 X6)|intros e; exact (proj2_sig r_lata2_UMs L ((q * x1) * (q * x1)) (q * q) ((q * (1 + e)) * (q * (1 + e))) ((q * x1) * (q * x1)) ((q * x1) * (q * x1)) (q * q) (q * q) ((q * x1) * (q * x1)) (q * x1) q (q * (1 + e)) (q * x1) (q * x1) q q (q * x1) X lam z X4 X5 X6)]. Qed.
  Lemma c_xtt_GQU_check : limit_check 5 cfg_GQU (Defined.ES (proj1_sig r_xtt_G) (proj1_sig r_xtt_QUs)) = true. Proof. vm_compute. reflexivity. Qed.
  Lemma c_xtt_GQU : bigO 1 (fun e => xtt_G L (q * q) ((q * (1 + e)) * (q * (1 + e))) ((q * x1) * (q * x1)) q (q * (1 + e)) (q * x1) ((q * x2) * (q * x2)) (q * x2) X4 X5 X6 lam - xtt_QU L (q * q) ((q * x1) * (q * x1)) q (q * x1) ((q * x2) * (q * x2)) (q * x2) X4 X5 X6 lam).
  Proof. refine (use 5 cfg_GQU _ _ (fun e => xtt_G L (q * q) ((q * (1 + e)) * (q * (1 + e))) ((q * x1) * (q * x1)) q (q * (1 + e)) (q * x1) ((q * x2) * (q * x2)) (q * x2) X4 X5 X6 lam) (fun e => xtt_QU L (q * q) ((q * x1) * (q * x1)) q (q * x1) ((q * x2) * (q * x2)) (q * x2) X4 X5 X6 lam) _ c_xtt_GQU_check _ _); [vm_compute; reflexivity|intros e; exact (proj2_sig r_xtt_G L (q * q) ((q * (1 + e)) * (q * (1 + e))) ((q * x1) * (q * x1)) ((q * x2) * (q * x2)) (q * q) (q * q) ((q * x1) * (q * x1)) ((q * x2) * (q * x2)) q (q * (1 + e)) (q * x1) (q * x2) q q (q * x1) (q * x2) X lam z X4 X5 X6)|intros e; exact (proj2_sig r_xtt_QUs L (q * q) ((q * (1 + e)) * (q * (1 + e))) ((q * x1) * (q * x1)) ((q * x2) * (q * x2)) (q * q) (q * q) ((q * x1) * (q * x1)) ((q * x2) * (q * x2)) q (q * (1 + e)) (q * x1) (q * x2) q q (q * x1) (q * x2) X lam z X4 X5 X6)]. Qed.
  Lemma c_xtt_GQM_check : limit_check 4 cfg_GQM (Defined.ES (proj1_sig r_xtt_G) (proj1_sig r_xtt_QMs)) = true. Proof. vm_compute. reflexivity. Qed.
  Lemma c_xtt_GQM : bigO 1 (fun e => xtt_G L (q * q) ((q * x1) * (q * x1)) ((q * (1 + e)) * (q * (1 + e))) q (q * x1) (q * (1 + e)) ((q * x2) * (q * x2)) (q * x2) X4 X5 X6 lam - xtt_QM L (q * q) ((q * x1) * (q * x1)) q (q * x1) ((q * x2) * (q * x2)) (q * x2) X4 X5 X6 lam).
  Proof. refine (use 4 cfg_GQM _ _ (fun e => xtt_G L (q * q) ((q * x1) * (q * x1)) ((q * (1 + e)) * (q * (1 + e))) q (q * x1) (q * (1 + e)) ((q * x2) * (q * x2)) (q * x2) X4 X5 X6 lam) (fun e => xtt_QM L (q * q) ((q * x1) * (q * x1)) q (q * x1) ((q * x2) * (q * x2)) (q * x2) X4 X5 X6 lam) _ c_xtt_GQM_check _ _); [vm_compute; reflexivity|intros e; exact (proj2_sig r_xtt_G L (q * q) ((q * x1) * (q * x1)) ((q * (1 + e)) * (q * (1 + e))) ((q * x2) * (q * x2)) (q * q) ((q * x1) * (q * x1)) (q * q) ((q * x2) * (q * x2)) q (q * x1) (q * (1 + e)) (q * x2) q (q * x1) q (q * x2) X lam z X4 X5 X6)|intros e; exact (proj2_sig r_xtt_QMs L (q * q) ((q * x1) * (q * x1)) ((q * (1 + e)) * (q * (1 + e))) ((q * x2) * (q * x2)) (q * q) ((q * x1) * (q * x1)) (q * q) ((q * x2) * (q * x2)) q (q * x1) (q * (1 + e)) (q * x2) q (q * x1) q (q * x2) X lam z X4 X5 X6)]. Qed.
  Lemma c_xtt_GUM_check : limit_check 4 cfg_GUM (Defined.ES (proj1_sig r_xtt_G) (proj1_sig r_xtt_UMs)) = true. Proof. vm_compute. reflexivity. Qed.
  Lemma c_xtt_GUM : bigO 1 (fun e => xtt_G L ((q * x1) * (q * x1)) (q * q) ((q * (1 + e)) * (q * (1 + e))) (q * x1) q (q * (1 + e)) ((q * x2) * (q * x2)) (q * x2) X4 X5 X6 lam - xtt_UM L ((q * x1) * (q * x1)) (q * q) (q * x1) q ((q * x2) * (q * x2)) (q * x2) X4 X5 X6 lam).
  Proof. refine (use 4 cfg_GUM _ _ (fun e => xtt_G L ((q * x1) * (q * x1)) (q * q) ((q * (1 + e)) * (q * (1 + e))) (q * x1) q (q * (1 + e)) ((q * x2) * (q * x2)) (q * x2) X4 X5 X6 lam) (fun e => xtt_UM L ((q * x1) * (q * x1)) (q * q) (q * x1) q ((q * x2) * (q * x2)) (q * x2) X4 X5 X6 lam) _ c_xtt_GUM_check _ _); [vm_compute; reflexivity|intros e; exact (proj2_sig r_xtt_G L ((q * x1) * (q * x1)) (q * q) ((q * (1 + e)) * (q * (1 + e))) ((q * x2) * (q * x2)) ((q * x1) * (q * x1)) (q * q) (q * q) ((q * x2) * (q * x2)) (q * x1) q (q * (1 + e)) (q * x2) (q * x1) q q (q * x2) X lam z X4 X5 X6)|intros e; exact (proj2_sig r_xtt_UMs L ((q * x1) * (q * x1)) (q * q) ((q * (1 + e)) * (q * (1 + e))) ((q * x2) * (q * x2)) ((q * x1) * (q * x1)) (q * q) (q * q) ((q * x2) * (q * x2)) (q * x1) q (q * (1 + e)) (q * x2) (q * x1) q q (q * x2) X lam z X4 X5 X6)]. Qed.
  Lemma c_xtt_QU_check : limit_check 4 cfg_QU (Defined.ES (proj1_sig r_xtt_QU) (proj1_sig r_xtt_QUMs)) = true. Proof. vm_compute. reflexivity. Qed.
  Lemma c_xtt_QU : bigO 1 (fun e => xtt_QU L (q * q) ((q * (1 + e)) * (q * (1 + e))) q (q * (1 + e)) ((q * x1) * (q * x1)) (q * x1) X4 X5 X6 lam - xtt_QUM L (q * q) q ((q * x1) * (q * x1)) (q * x1) X4 X5 X6 lam).
  Proof. refine (use 4 cfg_QU _ _ (fun e => xtt_QU L (q * q) ((q * (1 + e)) * (q * (1 + e))) q (q * (1 + e)) ((q * x1) * (q * x1)) (q * x1) X4 X5 X6 lam) (fun e => xtt_QUM L (q * q) q ((q * x1) * (q * x1)) (q * x1) X4 X5 X6 lam) _ c_xtt_QU_check _ _); [vm_compute; reflexivity|intros e; exact (proj2_sig r_xtt_QU L (q * q) (q * q) ((q * (1 + e)) * (q * (1 + e))) ((q * x1) * (q * x1)) (q * q) (q * q) (q * q) ((q * x1) * (q * x1)) q q (q * (1 + e)) (q * x1) q q q (q * x1) X lam z X4 X5 X6)|intros e; exact (proj2_sig r_xtt_QUMs L (q * q) (q * q) ((q * (1 + e)) * (q * (1 + e))) ((q * x1) * (q * x1)) (q * q) (q * q) (q * q) ((q * x1) * (q * x1)) q q (q * (1 + e)) (q * x1) q q q (q * x1) X lam z X4 X5 X6)]. Qed.
  Lemma c_xtt_QM_check : limit_check 7 cfg_QM (Defined.ES (proj1_sig r_xtt_QM) (proj1_sig r_xtt_QUMs)) = true. Proof. vm_compute. reflexivity. Qed.
  Lemma c_xtt_QM : bigO 1 (fun e => xtt_QM L (q * q) ((q * (1 + e)) * (q * (1 + e))) q (q * (1 + e)) ((q * x1) * (q * x1)) (q * x1) X4 X5 X6 lam - xtt_QUM L (q * q) q ((q * x1) * (q * x1)) (q * x1) X4 X5 X6 lam).
  Proof. refine (use 7 cfg_QM _ _ (fun e => xtt_QM L (q * q) ((q * (1 + e)) * (q * (1 + e))) q (q * (1 + e)) ((q * x1) * (q * x1)) (q * x1) X4 X5 X6 lam) (fun e => xtt_QUM L (q * q) q ((q * x1) * (q * x1)) (q * x1) X4 X5 X6 lam) _ c_xtt_QM_check _ _); [vm_compute; reflexivity|intros e; exact (proj2_sig r_xtt_QM L (q * q) ((q * (1 + e)) * (q * (1 + e))) (q * q) ((q * x1) * (q * x1)) (q * q) (q * q) (q * q) ((q * x1) * (q * x1)) q (q * (1 + e)) q (q * x1) q q q (q * x1) X lam z X4 X5 X6)|intros e; exact (proj2_sig r_xtt_QUMs L (q * q) ((q * (1 + e)) * (q * (1 + e))) (q * q) ((q * x1) * (q * x1)) (q * q) (q * q) (q * q) ((q * x1) * (q * x1)) q (q * (1 + e)) q (q * x1) q q q (q * x1) X lam z X4 X5 X6)]. Qed.
  Lemma c_xtt_UM_check : limit_check 7 cfg_UM (Defined.ES (proj1_sig r_xtt_UM) (proj1_sig r_xtt_QUMs)) = true. Proof. vm_compute. reflexivity. Qed.
  Lemma c_xtt_UM : bigO 1 (fun e => xtt_UM L (q * q) ((q * (1 + e)) * (q * (1 + e))) q (q * (1 + e)) ((q * x1) * (q * x1)) (q * x1) X4 X5 X6 lam - xtt_QUM L (q * q) q ((q * x1) * (q * x1)) (q * x1) X4 X5 X6 lam).
  Proof. refine (use 7 cfg_UM _ _ (fun e => xtt_UM L (q * q) ((q * (1 + e)) * (q * (1 + e))) q (q * (1 + e)) ((q * x1) * (q * x1)) (q * x1) X4 X5 X6 lam) (fun e => xtt_QUM L (q * q) q ((q * x1) * (q * x1)) (q * x1) X4 X5 X6 lam) _ c_xtt_UM_check _ _); [vm_compute; reflexivity|intros e; exact (proj2_sig r_xtt_UM L (q * q) ((q * (1 + e)) * (q * (1 + e))) ((q * (1 + e)) * (q * (1 + e))) ((q * x1) * (q * x1)) (q * q) (q * q) (q * q) ((q * x1) * (q * x1)) q (q * (1 + e)) (q * (1 + e)) (q * x1) q q q (q * x1) X lam z X4 X5 X6)|intros e; exact (proj2_sig r_xtt_QUMs L (q * q) ((q * (1 + e)) * (q * (1 + e))) ((q * (1 + e)) * (q * (1 + e))) ((q * x1) * (q * x1)) (q * q) (q * q) (q * q) ((q * x1) * (q * x1)) q (q * (1 + e)) (q * (1 + e)) (q * x1) q q q (q * x1) X lam z X4 X5 X6)]. Qed.
  Lemma c_xtt_D_check : limit_check 1 cfg_D (Defined.ES (proj1_sig r_xtt_QUM) (proj1_sig r_xtt_Ds)) = true. Proof. vm_compute. reflexivity. Qed.
  Lemma c_xtt_D : bigO 1 (fun e => xtt_QUM L (q * q) q ((q * (1 + e)) * (q * (1 + e))) (q * (1 + e)) X4 X5 X6 lam - xtt_D q X4 X5 X6 lam).
  Proof. refine (use 1 cfg_D _ _ (fun e => xtt_QUM L (q * q) q ((q * (1 + e)) * (q * (1 + e))) (q * (1 + e)) X4 X5 X6 lam) (fun e => xtt_D q X4 X5 X6 lam) _ c_xtt_D_check _ _); [vm_compute; reflexivity|intros e; exact (proj2_sig r_xtt_QUM L (q * q) (q * q) (q * q) ((q * (1 + e)) * (q * (1 + e))) (q * q) (q * q) (q * q) (q * q) q q q (q * (1 + e)) q q q q X lam z X4 X5 X6)|intros e; exact (proj2_sig r_xtt_Ds L (q * q) (q * q) (q * q) ((q * (1 + e)) * (q * (1 + e))) (q * q) (q * q) (q * q) (q * q) q q q (q * (1 + e)) q q q q X lam z X4 X5 X6)]. Qed.
  Lemma c_xtt_GQUa_check : limit_check 5 cfg_GQUa (Defined.ES (proj1_sig r_xtt_G) (proj1_sig r_xtt_QUs)) = true. Proof. vm_compute. reflexivity. Qed.
  Lemma c_xtt_GQUa : bigO 1 (fun e => xtt_G L (q * q) ((q * (1 + e)) * (q * (1 + e))) ((q * x1) * (q * x1)) q (q * (1 + e)) (q * x1) ((q * x1) * (q * x1)) (q * x1) X4 X5 X6 lam - xtt_QU L (q * q) ((q * x1) * (q * x1)) q (q * x1) ((q * x1) * (q * x1)) (q * x1) X4 X5 X6 lam).
  Proof. refine (use 5 cfg_GQUa _ _ (fun e => xtt_G L (q * q) ((q * (1 + e)) * (q * (1 + e))) ((q * x1) * (q * x1)) q (q * (1 + e)) (q * x1) ((q * x1) * (q * x1)) (q * x1) X4 X5 X6 lam) (fun e => xtt_QU L (q * q) ((q * x1) * (q * x1)) q (q * x1) ((q * x1) * (q * x1)) (q * x1) X4 X5 X6 lam) _ c_xtt_GQUa_check _ _); [vm_compute; reflexivity|intros e; exact (proj2_sig r_xtt_G L (q * q) ((q * (1 + e)) * (q * (1 + e))) ((q * x1) * (q * x1)) ((q * x1) * (q * x1)) (q * q) (q * q) ((q * x1) * (q * x1)) ((q * x1) * (q * x1)) q (q * (1 + e)) (q * x1) (q * x1) q q (q * x1) (q * x1) X lam z X4 X5 X6)|intros e; exact (proj2_sig r_xtt_QUs L (q * q) ((q * (1 + e)) * (q * (1 + e))) ((q * x1) * (q * x1)) ((q * x1) * (q * x1)) (q * q) (q * q) ((q * x1) * (q * x1)) ((q * x1) * (q * x1)) q (q * (1 + e)) (q * x1) (q * x1) q q (q * x1) (q * x1) X lam z X4 X5 X6)]. Qed.
  Lemma c_xtt_GQUb_check : limit_check 5 cfg_GQUb (Defined.ES (proj1_sig r_xtt_G) (proj1_sig r_xtt_QUs)) = true. Proof. vm_compute. reflexivity. Qed.
  Lemma c_xtt_GQUb : bigO 1 (fun e => xtt_G L (q * q) ((q * (1 + e)) * (q * (1 + e))) ((q * x1) * (q * x1)) q (q * (1 + e)) (q * x1) (q * q) q X4 X5 X6 lam - xtt_QU L (q * q) ((q * x1) * (q * x1)) q (q * x1) (q * q) q X4 X5 X6 lam).
  Proof. refine (use 5 cfg_GQUb _ _ (fun e => xtt_G L (q * q) ((q * (1 + e)) * (q * (1 + e))) ((q * x1) * (q * x1)) q (q * (1 + e)) (q * x1) (q * q) q X4 X5 X6 lam) (fun e => xtt_QU L (q * q) ((q * x1) * (q * x1)) q (q * x1) (q * q) q X4 X5 X6 lam) _ c_xtt_GQUb_check _ _); [vm_compute; reflexivity|intros e; exact (proj2_sig r_xtt_G L (q * q) ((q * (1 + e)) * (q * (1 + e))) ((q * x1) * (q * x1)) (q * q) (q * q) (q * q) ((q * x1) * (q * x1)) (q * q) q (q * (1 + e)) (q * x1) q q q (q * x1) q X lam z X4 X5 X6)|intros e; exact (proj2_sig r_xtt_QUs L (q * q) ((q * (1 + e)) * (q * (1 + e))) ((q * x1) * (q * x1)) (q * q) (q * q) (q * q) ((q * x1) * (q * x1)) (q * q) q (q * (1 + e)) (q * x1) q q q (q * x1) q X lam z X4 X5 X6)]. Qed.
  Lemma c_xtt_GQMa_check : limit_check 4 cfg_GQMa (Defined.ES (proj1_sig r_xtt_G) (proj1_sig r_xtt_QMs)) = true. Proof. vm_compute. reflexivity. Qed.
  Lemma c_xtt_GQMa : bigO 1 (fun e => xtt_G L (q * q) ((q * x1) * (q * x1)) ((q * (1 + e)) * (q * (1 + e))) q (q * x1) (q * (1 + e)) ((q * x1) * (q * x1)) (q * x1) X4 X5 X6 lam - xtt_QM L (q * q) ((q * x1) * (q * x1)) q (q * x1) ((q * x1) * (q * x1)) (q * x1) X4 X5 X6 lam).
  Proof. refine (use 4 cfg_GQMa _ _ (fun e => xtt_G L (q * q) ((q * x1) * (q * x1)) ((q * (1 + e)) * (q * (1 + e))) q (q * x1) (q * (1 + e)) ((q * x1) * (q * x1)) (q * x1) X4 X5 X6 lam) (fun e => xtt_QM L (q * q) ((q * x1) * (q * x1)) q (q * x1) ((q * x1) * (q * x1)) (q * x1) X4 X5 X6 lam) _ c_xtt_GQMa_check _ _); [vm_compute; reflexivity|intros e; exact (proj2_sig r_xtt_G L (q * q) ((q * x1) * (q * x1)) ((q * (1 + e)) * (q * (1 + e))) ((q * x1) * (q * x1)) (q * q) ((q * x1) * (q * x1)) (q * q) ((q * x1) * (q * x1)) q (q * x1) (q * (1 + e)) (q * x1) q (q * x1) q (q * x1) X lam z X4 X5 X6)|intros e; exact (proj2_sig r_xtt_QMs L (q * q) ((q * x1) * (q * x1)) ((q * (1 + e)) * (q * (1 + e))) ((q * x1) * (q * x1)) (q * q) ((q * x1) * (q * x1)) (q * q) ((q * x1) * (q * x1)) q (q * x1) (q * (1 + e)) (q * x1) q (q * x1) q (q * x1) X lam z X4 X5 X6)]. Qed.
  Lemma c_xtt_GUMa_check : limit_check 4 cfg_GUMa (Defined.ES (proj1_sig r_xtt_G) (proj1_sig r_xtt_UMs)) = true. Proof. vm_compute. reflexivity. Qed.
  Lemma c_xtt_GUMa : bigO 1 (fun e => xtt_G L ((q * x1) * (q * x1)) (q * q) ((q * (1 + e)) * (q * (1 + e))) (q * x1) q (q * (1 + e)) ((q * x1) * (q * x1)) (q * x1) X4 X5 X6 lam - xtt_UM L ((q * x1) * (q * x1)) (q * q) (q * x1) q ((q * x1) * (q * x1)) (q * x1) X4 X5 X6 lam).
  Proof. refine (use 4 cfg_GUMa _ _ (fun e => xtt_G L ((q * x1) * (q * x1)) (q * q) ((q * (1 + e)) * (q * (1 + e))) (q * x1) q (q * (1 + e)) ((q * x1) * (q * x1)) (q * x1) X4 X5 X6 lam) (fun e => xtt_UM L ((q * x1) * (q * x1)) (q * q) (q * x1) q ((q * x1) * (q * x1)) (q * x1) X4 X5 X6 lam) _ c_xtt_GUMa_check _ _); [vm_compute; reflexivity|intros e; exact (proj2_sig r_xtt_G L ((q * x1) * (q * x1)) (q * q) ((q * (1 + e)) * (q * (1 + e))) ((q * x1) * (q * x1)) ((q * x1) * (q * x1)) (q * q) (q * q) ((q * x1) * (q * x1)) (q * x1) q (q * (1 + e)) (q * x1) (q * x1) q q (q * x1) X lam z X4 X5 X6)|intros e; exact (proj2_sig r_xtt_UMs L ((q * x1) * (q * x1)) (q * q) ((q * (1 + e)) * (q * (1 + e))) ((q * x1) * (q * x1)) ((q * x1) * (q * x1)) (q * q) (q * q) ((q * x1) * (q * x1)) (q * x1) q (q * (1 + e)) (q * x1) (q * x1) q q (q * x1) X lam z X4 X5 X6)]. Qed.
End Cases.
