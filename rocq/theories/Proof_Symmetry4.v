(** Whole spectra of moved patterns, and what thresholding does to them. *)
From Coq Require Import Reals Lra ZArith String Lia.
From mathcomp Require Import all_ssreflect all_algebra.
From Verif Require Import Base Cplx CplxLemmas CField Model_Lattice Spec_Lattice Model_Modes Spec_Modes
  Model_TRCWA Spec_TRCWA Spec_Passive Spec_Symmetry Proof_Smatrix Proof_FFT Proof_Pattern2 Proof_Basis Proof_Basis2
  Proof_Symmetry Proof_Symmetry2 Proof_Symmetry3.
Import GRing.Theory.
Delimit Scope R_scope with coqR.
Delimit Scope Z_scope with coqZ.
Local Open Scope ring_scope.

Lemma spectrum_symmetric argsort eig eig' e e' u r r' e1 e2 s t :
  sorts argsort -> usable (u_cfg u) -> eigenbasis eig -> eigenbasis eig' ->
  is_sign e1 -> is_sign e2 -> lattice_symmetric (u_cfg u) e1 e2 ->
  e_nx e' = e_nx e -> e_ny e' = e_ny e -> e_nl e' = e_nl e -> e_nf e' = e_nf e ->
  (forall a b i k, (a < e_nx e)%N -> (b < e_ny e)%N -> (i < e_nl e)%N -> (k < e_nf e)%N ->
     e_at e' a b i k = e_at e (moved (e_nx e) e1 s a) (moved (e_ny e) e2 t b) i k) ->
  (e_nx e = 1%N /\ e_ny e = 1%N \/
   forall G i k, orders_of argsort (u_cfg u) G -> (i < e_nl e)%N -> (k < e_nf e)%N ->
     resolved_entries (mkGrid2 (e_nx e) (e_ny e) (fun a b => slice4 e k a b i)) G
     /\ resolved_entries (mkGrid2 (e_nx e) (e_ny e) (fun a b => slice4 e' k a b i)) G) ->
  compute_spectrum_trcwa argsort eig e u = Ok r -> compute_spectrum_trcwa argsort eig' e' u = Ok r' -> r = r'.
Proof.
  move=> Hs Hu He He' S1 S2 HL X Y L F Hg HR /spectrum_inv [_ [fr [rs [Ef [Sf [M ->]]]]]] /spectrum_inv [_ [fr' [rs' [Ef' [_ [M' ->]]]]]].
  rewrite Ef in Ef'. case: Ef' => ?; subst fr'.
  suff -> : rs = rs' by []. move: M M'. apply: map_layers_agree => -[k f] y z Hin /=. rewrite /bind X Y L.
  have Hk' : (k < e_nf e)%N by have := in_zip_iota _ _ _ _ Hin; rewrite add0n Sf.
  case E: (init_trcwa _ eig _ _ _ _ _ _) => [x|] // Hy. case E': (init_trcwa _ eig' _ _ _ _ _ _) => [x'|] // Hz.
  have O : forall eig g x, init_trcwa argsort eig (u_cfg u) (e_nx e) (e_ny e) (e_nl e) g f = Ok x -> orders_of argsort (u_cfg u) (x_G x).
    move=> eg g x0 /init_facts [_ [_ [lk1 [lk2 [n [_ [A [B _]]]]]]]]. by exists lk1, lk2, n.
  have := symmetric_pattern argsort eig eig' (u_cfg u) (e_nx e) (e_ny e) (e_nl e) (slice4 e k) (slice4 e' k) f x x' true y
     e1 e2 s t Hs Hu He He' S1 S2 HL.
  move=> T. have {T} T : RT_Solve true x' = Ok y.
    apply/T => //.
    - move=> a b i Ha Hb Hi. by rewrite /slice4 Hg.
    - case: HR => [?|HR]; [by left|right=> i Hi]. split; [have [] := HR _ i k (O _ _ _ E) Hi Hk'|have [] := HR _ i k (O _ _ _ E') Hi Hk'] => //.
  rewrite T in Hz. by case: Hz.
Qed.

(** * A stripe whose permittivity matrix changes when it is moved by one cell *)
Definition three_orders : seq (Z * Z) := [:: (0, 0)%coqZ; (1, 0)%coqZ; (-1, 0)%coqZ].
Definition moved_stripe : grid2 := mkGrid2 4 1 (fun a b => g_at stripe (moved 4 1 1 a) (moved 1 1 0 b)).

Lemma stripe_second : fourier stripe 2 0 = 0 /\ fourier stripe (-2) 0 = 0.
Proof.
  have P : forall (k : Z) z, (forall x : nat, Cis (- (2 * PI) * (IZR k * (INR x / INR 4) + 0 * (INR 0 / INR 1)))%coqR = z x) ->
     fourier stripe k 0 = RtoC (/ 4)%coqR * (z 0%N + RtoC 5 * z 1%N + RtoC 5 * z 2%N + z 3%N).
    move=> k z E. rewrite /fourier /stripe /=. congr (_ * _); first by congr RtoC; field.
    rewrite !big_ord_recl !big_ord0 /= !addr0. have F := E. rewrite /= in F.
    rewrite /bump /= in F *. rewrite (F 0%N) (F 1%N) (F 2%N) (F 3%N).
    have M1 : forall u : C, RtoC 1%coqR * u = u by move=> u; apply: Ceq => /=; ring.
    by rewrite !M1 !addrA.
  have H2 : forall x : nat, Cis (- (2 * PI) * (-2 * (INR x / INR 4) + 0 * (INR 0 / INR 1)))%coqR = (Ci * Ci) ^+ x.
    move=> x. rewrite exprMn -Cis_quarter -Cis_add. congr Cis. rewrite Rmult_0_l. change (INR 4) with (1+1+1+1)%coqR. field.
  have H1 : forall x : nat, Cis (- (2 * PI) * (2 * (INR x / INR 4) + 0 * (INR 0 / INR 1)))%coqR = Cconj ((Ci * Ci) ^+ x).
    move=> x. rewrite -H2 -Cis_opp. congr Cis. ring.
  split; first by rewrite (P 2%coqZ _ H1) expr0 expr1 !exprS; apply: Ceq => /=; field.
  by rewrite (P (-2)%coqZ _ H2) expr0 expr1 !exprS; apply: Ceq => /=; field.
Qed.

Lemma moved_stripe_coeffs : fourier moved_stripe 0 0 = RtoC 3 /\ fourier moved_stripe 1 0 = (1, -1)%coqR
  /\ fourier moved_stripe (-1) 0 = (1, 1)%coqR /\ fourier moved_stripe 2 0 = 0 /\ fourier moved_stripe (-2) 0 = 0.
Proof.
  have F : forall k, fourier moved_stripe k 0 = Cis (PI / 2 * IZR k)%coqR * fourier stripe k 0.
    move=> k. rewrite (fourier_moved stripe moved_stripe 1 1 1 0 k 0 (or_introl erefl) (or_introl erefl) erefl erefl ltac:(by [])).
    congr (_ * fourier _ _ _); last by lia. rewrite /shift_phase. congr Cis. rewrite [g_nx _]/= [g_ny _]/= !mult_IZR [(k, 0%coqZ).1]/=.
    change (INR 4) with (1+1+1+1)%coqR. rewrite [(k, 0%coqZ).2]/= [INR 1]/=. field.
  have [A0 [A1 A2]] := stripe_coeffs. have [A3 A4] := stripe_second.
  have Q := Cis_quarter 1. rewrite expr1 [INR 1]/= in Q.
  rewrite !F A0 A1 A2 A3 A4 !mulr0. rewrite Rmult_0_r Cis_0 mul1r Q.
  have -> : (PI / 2 * -1 = - (PI / 2 * 1))%coqR by ring.
  rewrite Cis_opp Q. 
  split; first by []. split; first by apply: Ceq => /=; ring. split; first by apply: Ceq => /=; ring. by [].
Qed.

Lemma three_sum (F : 'I_3 -> C) : \sum_i F i = F 0 + F 1 + F 2%:R.
Proof.
  rewrite !big_ord_recl big_ord0 addr0 addrA. congr (F _ + F _ + F _); exact: val_inj.
Qed.

Lemma trace_square (E : 'M[C]_3) : \tr (block_mx E 0 0 E *m block_mx E 0 0 E)
  = (E 0 0 * E 0 0 + E 1 1 * E 1 1 + E 2%:R 2%:R * E 2%:R 2%:R
     + (E 0 1 * E 1 0 + E 0 2%:R * E 2%:R 0 + E 1 2%:R * E 2%:R 1) *+ 2) *+ 2.
Proof.
  rewrite mulmx_block !mul0mx !mulmx0 !addr0 !add0r mxtrace_block. rewrite -mulr2n. congr (_ *+ 2).
  rewrite /mxtrace three_sum !mxE !three_sum.
  move: (E 0 0) (E 0 1) (E 0 2%:R) (E 1 0) (E 1 1) (E 1 2%:R) (E 2%:R 0) (E 2%:R 1) (E 2%:R 2%:R) => a b c d e f g h i.
  rewrite mulr2n. cring.
Qed.

Lemma stripe_matrix g : g_nx g = 4%N -> g_ny g = 1%N -> (forall x y, (x < 4)%N -> (y < 1)%N -> (1 <= Re (g_at g x y) /\ Im (g_at g x y) = 0)%coqR) ->
  exists M : 'M[C]_3, Epsilon_fft (1 / INR 4 / INR 1)%coqR (Iso g) three_orders = Ok (invmx M, block_mx (map_mx threshold M) 0 0 (map_mx threshold M))
   /\ forall i j : 'I_3, M i j = fourier g (order_diff three_orders i j).1 (order_diff three_orders i j).2.
Proof.
  move=> X Y H.
  have R : resolves (g_nx g) (g_ny g) three_orders.
    rewrite X Y. move=> [|[|[|i]]] [|[|[|j]]] //= _ _; rewrite /order_diff /=; lia.
  have [M HM] := proj1 (conv_defined g three_orders ltac:(by rewrite X) ltac:(by rewrite Y)) R.
  have ND : List.NoDup three_orders.
    repeat constructor; rewrite /=; intuition congruence.
  have U := conv_unit g three_orders M Ci ND HM.
  have {U} U : M \in unitmx.
    apply: U => x y. rewrite X Y => Hx Hy. have [P Q] := H x y Hx Hy. rewrite C_mulE /=. nra.
  exists M. split; last exact: conv_entry HM.
  rewrite X Y in HM. rewrite /Epsilon_fft HM /= /inverse U /=. rewrite map_block_mx.
  have T0 : map_mx threshold (0 : 'M[C]_3) = 0 by apply/matrixP => i j; rewrite !mxE threshold0.
  by rewrite [map_mx threshold 0]T0.
Qed.

Lemma stripe_moves : exists ei e2 ei' e2',
  Epsilon_fft (1 / INR 4 / INR 1)%coqR (Iso stripe) three_orders = Ok (ei, e2)
  /\ Epsilon_fft (1 / INR 4 / INR 1)%coqR (Iso moved_stripe) three_orders = Ok (ei', e2')
  /\ forall D, D \in unitmx -> D *m e2 <> e2' *m D.
Proof.
  have V : forall x y, (1 <= Re (g_at stripe x y) /\ Im (g_at stripe x y) = 0)%coqR.
    move=> x y. rewrite /stripe /=. case: ((x == 1%N) || (x == 2%N)); lra.
  have [M [E1 F1]] := stripe_matrix stripe erefl erefl (fun x y _ _ => V x y).
  have [M' [E2 F2]] := stripe_matrix moved_stripe erefl erefl (fun x y _ _ => V _ _).
  do 4 eexists. split; first exact: E1. split; first exact: E2.
  move=> D UD K.
  have {K} K : \tr (block_mx (map_mx threshold M) 0 0 (map_mx threshold M) *m block_mx (map_mx threshold M) 0 0 (map_mx threshold M))
     = \tr (block_mx (map_mx threshold M') 0 0 (map_mx threshold M') *m block_mx (map_mx threshold M') 0 0 (map_mx threshold M')).
    move: (block_mx (map_mx threshold M) _ _ _) (block_mx (map_mx threshold M') _ _ _) D UD K => A B D UD K.
    have -> : A = invmx D *m (B *m D) by rewrite -K mulKmx.
    rewrite -mulmxA (mulmxA (B *m D)) mulmxK // mxtrace_mulC. by rewrite -!mulmxA mulmxV // mulmx1.
  have [A0 [A1 A2]] := stripe_coeffs. have [A3 A4] := stripe_second. have [B0 [B1 [B2 [B3 B4]]]] := moved_stripe_coeffs.
  have P0 : (0 < / 10 ^ 14)%coqR by apply: Rinv_0_lt_compat; apply: pow_lt; lra.
  have P1 : (/ 10 ^ 14 < 1)%coqR.
    rewrite -Rinv_1. apply: Rinv_lt_contravar; first by rewrite Rmult_1_l; apply: pow_lt; lra.
    apply: Rlt_pow_R1; [lra|lia].
  have T1 : threshold (-1, -1)%coqR = 0 by apply: (proj2 (threshold_spec _)); rewrite /kept [Re _]/= [Im _]/= => -[|]; lra.
  have T2 : threshold (-1, 1)%coqR = (-1, 1)%coqR by apply: (proj1 (threshold_spec _)); rewrite /kept [Re _]/= [Im _]/=; right; lra.
  have T3 : threshold (1, -1)%coqR = (1, -1)%coqR by apply: (proj1 (threshold_spec _)); rewrite /kept [Re _]/= [Im _]/=; left; lra.
  have T4 : threshold (1, 1)%coqR = (1, 1)%coqR by apply: (proj1 (threshold_spec _)); rewrite /kept [Re _]/= [Im _]/=; left; lra.
  have T5 : threshold (RtoC 3) = RtoC 3 by apply: (proj1 (threshold_spec _)); rewrite /kept [Re _]/= [Im _]/=; left; lra.
  rewrite !trace_square in K. rewrite !mxE !F1 !F2 /order_diff /= in K.
  rewrite A0 A1 A2 A3 A4 B0 B1 B2 B3 B4 T1 T2 T3 T4 T5 threshold0 in K.
  have := f_equal Re K. rewrite /=. lra.
Qed.
