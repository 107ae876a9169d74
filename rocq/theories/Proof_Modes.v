(** Modes of a layer and the Poynting flux. *)
From Coq Require Import Reals Lra.
From mathcomp Require Import all_ssreflect all_algebra.
From Verif Require Import Base Cplx CplxLemmas CField Model_Modes Spec_Modes Proof_Sqrt Proof_Smatrix.
Import GRing.Theory.
Delimit Scope R_scope with coqR.
Local Open Scope ring_scope.

(** * Uniform layers *)
Lemma uniform_modes {n} (omega eps : C) (kx ky : 'rV[C]_n) :
  let q := (Solve_uniform omega kx ky eps).1 in
  (forall j, mode_root (eps * omega * omega - kx 0 j * kx 0 j - ky 0 j * ky 0 j) (q 0 (lshift n j))
          /\ q 0 (rshift n j) = q 0 (lshift n j))
  /\ (Solve_uniform omega kx ky eps).2 = 1%:M.
Proof.
  move=> q. split=> // j. rewrite /q /Solve_uniform /= row_mxEl row_mxEr !mxE. split=> //.
  rewrite !expr2 ?C_mulE.
  match goal with |- mode_root ?a (branch_cut (Csqrt ?b)) => replace a with b; [exact: mode_number|ring] end.
Qed.

Lemma tr_diag {n} (d : 'rV[C]_n) : (diag_mx d)^T = diag_mx d.
Proof. exact: tr_diag_mx. Qed.

(** The uniform solution solves the eigenproblem of the general layers. *)
Lemma uniform_eigen {n} (omega eps : C) (kx ky : 'rV[C]_n) :
  eps <> C0 ->
  let kp := MakeKP_uniform omega (eps^-1) kx ky in
  let r := Solve_uniform omega kx ky eps in
  mode_matrix kx ky kp (eps%:M) *m r.2 = r.2 *m diag_mx (\row_j (r.1 0 j * r.1 0 j)).
Proof.
  move=> He kp r. have -> : r.2 = 1%:M by []. rewrite mulmx1 mul1mx.
  have E : mode_matrix kx ky kp (eps%:M)
         = block_mx (diag_mx (\row_j (eps * omega * omega - kx 0 j * kx 0 j - ky 0 j * ky 0 j))) 0
                    0 (diag_mx (\row_j (eps * omega * omega - kx 0 j * kx 0 j - ky 0 j * ky 0 j))).
    rewrite /mode_matrix /kp /MakeKP_uniform mul_scalar_mx scalerBr scalerA.
    have -> : eps * eps^-1 = 1 by rewrite mulfV //; apply/eqP.
    rewrite scale1r /Jk tr_col_mx !tr_diag !mul_col_row -addrA -opprD.
    rewrite add_block_mx scalar_mx_block scale_block_mx opp_block_mx add_block_mx.
    rewrite !scaler0 !mulmx_diag.
    congr block_mx; apply/matrixP => i j; rewrite !mxE;
    case: (i == j); rewrite ?mulr0n ?mulr1n ?expr2;
    move: (kx 0 i) (ky 0 i) => x y; cring.
  rewrite E. apply/matrixP => i j.
  have [U _] := uniform_modes omega eps kx ky. rewrite -/r in U. move: r.1 U => q U.
  rewrite -(splitK i) -(splitK j).
  case: (split i) => i'; case: (split j) => j' /=;
  rewrite ?block_mxEul ?block_mxEur ?block_mxEdl ?block_mxEdr !mxE.
  - rewrite (inj_eq (@lshift_inj n n)). case: eqP => [->|] //=. rewrite !mulr1n.
    have [[H _] _] := U j'.
    exact: esym H.
  - by rewrite eq_lrshift.
  - by rewrite eq_rlshift.
  - rewrite (inj_eq (@rshift_inj n n)). case: eqP => [->|] //=. rewrite !mulr1n.
    have [[H _] K] := U j'. rewrite K. exact: esym H.
Qed.

(** Patterned layers: mode numbers and vectors are what the eigensolver's results
    say, for every solver that returns eigenvectors. *)
Lemma patterned_eigen {n} eig (kx ky : 'rV[C]_n) (kp ep2 phi : 'M[C]_(n + n)) q :
  (forall M w V, eig M = Ok (w, V) -> M *m V = V *m diag_mx w) ->
  Solve_patterned eig kx ky kp ep2 = Ok (q, phi) ->
  mode_matrix kx ky kp ep2 *m phi = phi *m diag_mx (\row_j (q 0 j * q 0 j))
  /\ (forall j, mode_root (q 0 j * q 0 j) (q 0 j)).
Proof.
  move=> Heig. rewrite /Solve_patterned /bind.
  have -> : ep2 *m kp - col_mx (diag_mx kx) (diag_mx ky) *m (col_mx (diag_mx kx) (diag_mx ky))^T
          = mode_matrix kx ky kp ep2 by rewrite /mode_matrix tr_col_mx !tr_diag.
  case E: (eig _) => [[w V]|] //= [<- <-].
  have R : forall j, mode_root (w 0 j) (map_row (fun z => branch_cut (Csqrt z)) w 0 j).
    move=> j. rewrite mxE. exact: mode_number.
  split.
  - rewrite (Heig _ _ _ E). congr (_ *m diag_mx _). apply/rowP => j. rewrite [RHS]mxE.
    by have [<- _] := R j.
  - move=> j. have [H1 H2] := R j. split=> //.
Qed.

(** * Poynting flux *)
Lemma Flux_A_ok {m} omega (md : mode m) A : Flux_A omega md = Ok A ->
  omega != 0 /\ (forall j, m_q md 0 j != 0)
  /\ (forall a b : 'cV[C]_m, A *m (a - b) = E_at omega md a b).
Proof.
  rewrite /Flux_A /bind. case E: (row_inv (m_q md)) => [iq|] //. have [Hq Eq] := row_inv_ok _ _ E.
  case: eqP => // /eqP Ho [<-]. split=> //. split=> // a b.
  rewrite /E_at -!mulmxA. congr (_ *m (_ *m _)). apply/colP => j.
  rewrite mul_diag_mx !mxE Eq !mxE. rewrite invfM. by rewrite mulrC.
Qed.

Lemma cpair (x y : C) : x = y <-> Re x = Re y /\ Im x = Im y.
Proof. split; [by move=> -> | move=> [? ?]; exact: Ceq]. Qed.

(** One component. *)
Lemma flux_component (Aa Ab pa pb : C) :
  let diff := half_C * (Cconj pb * Aa - Cconj Ab * pa) in
  RtoC (Re (Cconj Aa * pa)) + diff + (RtoC (Ropp (Re (Cconj Ab * pb))) + Cconj diff)
  = RtoC (Re (Cconj (Aa - Ab) * (pa + pb))).
Proof.
  move: Aa Ab pa pb => [x1 x2] [y1 y2] [z1 z2] [w1 w2] diff. rewrite /diff.
  rewrite ?C_addE ?C_oppE ?C_mulE. apply: Ceq; rewrite /half_C /=; field.
Qed.

Lemma Re_sum (I : Type) (r : seq I) (F : I -> C) :
  \sum_(i <- r) RtoC (Re (F i)) = RtoC (Re (\sum_(i <- r) F i)).
Proof.
  elim: r => [|x r IH]; first by rewrite !big_nil.
  rewrite !big_cons IH. rewrite ?C_addE. apply: Ceq; rewrite /=; ring.
Qed.

Lemma Flux_xy_ok {m} (a b : 'cV[C]_m) omega md x y :
  Flux_xy a b omega md = Ok (x, y) ->
  forall i, x i 0 + y i 0 = RtoC (Re (Cconj (E_at omega md a b i 0) * H_at md a b i 0)).
Proof.
  rewrite /Flux_xy /bind. case E: (Flux_A omega md) => [A|] // [<- <-] i.
  have [_ [_ HA]] := Flux_A_ok _ _ _ E.
  rewrite -HA /H_at mulmxBr mulmxDr.
  move: (A *m a) (A *m b) (m_phi md *m a) (m_phi md *m b) => Aa Ab pa pb.
  rewrite !mxE. exact: flux_component.
Qed.

Lemma flux_by_order {n} (a b : 'cV[C]_(n + n)) omega md x y :
  GetZPoyntingFlux_byorder a b omega md = Ok (x, y) ->
  let E := E_at omega md a b in let H := H_at md a b in
  forall i, x i 0 + y i 0 = RtoC (Re (Cconj (E (lshift n i) 0) * H (lshift n i) 0)
                                + Re (Cconj (E (rshift n i) 0) * H (rshift n i) 0)).
Proof.
  rewrite /GetZPoyntingFlux_byorder /bind. case Ef: (Flux_xy _ _ _ _) => [[u v]|] // [<- <-] i.
  have K := Flux_xy_ok _ _ _ _ _ _ Ef.
  have F : forall w : 'cV[C]_(n + n), fold_pol w i 0 = w (lshift n i) 0 + w (rshift n i) 0 by move=> w; rewrite !mxE.
  by rewrite /= !F addrACA !K RtoC_add.
Qed.

Lemma flux_orders_sum {n} (a b : 'cV[C]_(n + n)) omega md :
  GetZPoyntingFlux a b omega md =
  bind (GetZPoyntingFlux_byorder a b omega md) (fun r => Ok (\sum_i r.1 i 0, \sum_i r.2 i 0)).
Proof. by []. Qed.

Lemma flux_total {n} (a b : 'cV[C]_(n + n)) omega md f g :
  GetZPoyntingFlux a b omega md = Ok (f, g) ->
  f + g = RtoC (power (E_at omega md a b) (H_at md a b)).
Proof.
  rewrite flux_orders_sum /bind. case E: (GetZPoyntingFlux_byorder _ _ _ _) => [[x y]|] // [<- <-].
  have K := flux_by_order _ _ _ _ _ _ E.
  rewrite -big_split /= (eq_bigr _ (fun i _ => K i)).
  rewrite (eq_bigr (fun i => RtoC (Re (Cconj (E_at omega md a b (lshift n i) 0) * H_at md a b (lshift n i) 0
     + Cconj (E_at omega md a b (rshift n i) 0) * H_at md a b (rshift n i) 0)))); last by move=> i _.
  by rewrite Re_sum /power big_split_ord /= big_split.
Qed.

Lemma E_at_swap {m} omega (md : mode m) (b : 'cV[C]_m) : E_at omega md 0 b = - E_at omega md b 0.
Proof.
  rewrite /E_at -!mulmxN. congr (_ *m (_ *m _)). apply/colP => j. rewrite !mxE.
  by rewrite oppr0 addr0 add0r mulNr.
Qed.

(** Waves in one direction only. *)
Lemma Flux_xy_one {m} (a : 'cV[C]_m) omega md x y :
  (Flux_xy a 0 omega md = Ok (x, y) ->
     y = 0 /\ forall i, x i 0 = RtoC (Re (Cconj (E_at omega md a 0 i 0) * H_at md a 0 i 0)))
  /\ (Flux_xy 0 a omega md = Ok (x, y) ->
     x = 0 /\ forall i, y i 0 = RtoC (Ropp (Re (Cconj (E_at omega md a 0 i 0) * H_at md a 0 i 0)))).
Proof.
  have C0z : Cconj C0 = C0 by apply: Ceq; rewrite /=; ring.
  split.
  - move=> E. have K := Flux_xy_ok _ _ _ _ _ _ E.
    have Y : y = 0.
      move: E. rewrite /Flux_xy /bind. case: (Flux_A omega md) => [A|] // [_ <-].
      apply/colP => i. rewrite !mulmx0 !mxE. rewrite ?C_0E ?C_addE ?C_mulE ?C_oppE.
      apply: Ceq; rewrite /=; ring.
    split=> // i. rewrite -K Y. by rewrite mxE addr0.
  - move=> E. have K := Flux_xy_ok _ _ _ _ _ _ E.
    have X : x = 0.
      move: E. rewrite /Flux_xy /bind. case: (Flux_A omega md) => [A|] // [<- _].
      apply/colP => i. rewrite !mulmx0 !mxE. rewrite ?C_0E ?C_addE ?C_mulE ?C_oppE.
      apply: Ceq; rewrite /=; ring.
    split=> // i. move: (K i). rewrite X mxE add0r => ->. rewrite E_at_swap.
    have -> : H_at md 0 a = H_at md a 0 by rewrite /H_at addrC.
    rewrite mxE. move: (E_at _ _ _ _ i 0) (H_at _ _ _ i 0) => u v.
    rewrite ?C_oppE ?C_mulE. apply: Ceq; rewrite /=; ring.
Qed.

Lemma fold_sum {n} (v : 'cV[C]_(n + n)) : \sum_i fold_pol v i 0 = \sum_i v i 0.
Proof.
  rewrite big_split_ord /= -big_split /=. apply: eq_bigr => i _. by rewrite !mxE.
Qed.

Lemma flux_one_way {n} (a : 'cV[C]_(n + n)) omega md f g :
  (GetZPoyntingFlux a 0 omega md = Ok (f, g) ->
     f = RtoC (power (E_at omega md a 0) (H_at md a 0)) /\ g = C0)
  /\ (GetZPoyntingFlux 0 a omega md = Ok (f, g) ->
     f = C0 /\ g = RtoC (Ropp (power (E_at omega md a 0) (H_at md a 0)))).
Proof.
  have S0 : \sum_(i < n + n) (0 : 'cV[C]_(n + n)) i 0 = 0 by apply: big1 => i _; rewrite mxE.
  split; rewrite /GetZPoyntingFlux /GetZPoyntingFlux_byorder /bind.
  - case E: (Flux_xy _ _ _ _) => [[x y]|] // [<- <-]. rewrite /= !fold_sum.
    have [-> K] := (Flux_xy_one _ _ _ _ _).1 E. split=> //.
    by rewrite (eq_bigr _ (fun i _ => K i)) Re_sum.
  - case E: (Flux_xy _ _ _ _) => [[x y]|] // [<- <-]. rewrite /= !fold_sum.
    have [-> K] := (Flux_xy_one _ _ _ _ _).2 E. split=> //.
    rewrite (eq_bigr _ (fun i _ => K i)).
    have -> : \sum_i RtoC (Ropp (Re (Cconj (E_at omega md a 0 i 0) * H_at md a 0 i 0)))
            = - \sum_i RtoC (Re (Cconj (E_at omega md a 0 i 0) * H_at md a 0 i 0)).
      rewrite -sumrN. apply: eq_bigr => i _. rewrite C_oppE. apply: Ceq; rewrite /=; ring.
    rewrite Re_sum C_oppE /power. by apply: Ceq => //=; rewrite Ropp_0.
Qed.

Lemma flux_scaled {n} (c : C) (a b : 'cV[C]_(n + n)) omega md f g :
  GetZPoyntingFlux a b omega md = Ok (f, g) ->
  GetZPoyntingFlux (c *: a) (c *: b) omega md = Ok (RtoC (Cnorm2 c) * f, RtoC (Cnorm2 c) * g).
Proof.
  rewrite /GetZPoyntingFlux /GetZPoyntingFlux_byorder /Flux_xy /bind.
  case: (Flux_A omega md) => [A|] // [<- <-]. rewrite /= !fold_sum.
  congr (Ok (_, _)); rewrite big_distrr /=; apply: eq_bigr => i _; rewrite -!scalemxAr;
  move: (A *m a) (A *m b) (m_phi md *m a) (m_phi md *m b) => Aa Ab pa pb; rewrite !mxE;
  move: c (Aa i 0) (Ab i 0) (pa i 0) (pb i 0) => [c1 c2] [x1 x2] [y1 y2] [z1 z2] [w1 w2];
  rewrite ?C_addE ?C_oppE ?C_mulE; apply: Ceq; rewrite /half_C /Cnorm2 /=; field.
Qed.

Lemma mode_root_unique (w p q : C) : mode_root w p -> mode_root w q -> p = q.
Proof.
  move=> [Hp [Ip Rp]] [Hq [Iq Rq]]. apply: mode_number_unique => //. by rewrite Hp Hq.
Qed.

Lemma mode_root_decays (w q : C) (z : R) : mode_root w q -> (0 <= z)%coqR ->
  (Cnorm2 (Cexp (Cmul (Cmul Ci q) (RtoC z))) <= 1)%coqR.
Proof. move=> [_ [Iq _]] Hz. exact: wave_bounded. Qed.

Lemma flux_by_order_sums {n} (a b : 'cV[C]_(n + n)) omega md x y :
  GetZPoyntingFlux_byorder a b omega md = Ok (x, y) ->
  GetZPoyntingFlux a b omega md = Ok (\sum_i x i 0, \sum_i y i 0).
Proof. by move=> H; rewrite flux_orders_sum H. Qed.

(** * A stack of two different media *)
Definition plain_mode (k : C) : mode (1 + 1) := mkMode (const_mx k) 1%:M 1%:M.

Lemma plain_stack (k1 k2 : C) (t1 t2 : R) : k1 <> C0 -> k2 <> C0 -> Cadd k1 k2 <> C0 ->
  exists M, GetSMatrix 0 1 [:: Some (plain_mode k1); Some (plain_mode k2)] [:: t1; t2] = Ok M.
Proof.
  move=> H1 H2 H12.
  rewrite /GetSMatrix /=.
  have U : forall c : C, c <> C0 -> (c%:M : 'M[C]_(1 + 1)) \in unitmx.
    move=> c Hc. rewrite unitmxE det_scalar. by rewrite unitfE expf_neq0 //; apply/eqP.
  have D : forall k : C, diag_mx (const_mx k : 'rV[C]_(1+1)) = k%:M by move=> k; rewrite diag_const_mx.
  suff [M' E] : exists M', step_core (plain_mode k1) (plain_mode k2) t1 t2 smat_id = Ok M'.
    exists M'. have -> : smat_step [:: Some (plain_mode k1); Some (plain_mode k2)] [:: t1; t2] 0 smat_id =
            step_core (plain_mode k1) (plain_mode k2) t1 t2 smat_id by [].
    by rewrite E.
  eexists. apply/step_core_ok. rewrite /=.
    split; first exact: unitmx1. split; first by rewrite mulmx1; exact: unitmx1.
    split; first by move=> j; rewrite mxE; apply/eqP.
    split; last reflexivity.
    rewrite !mulmx1 invmx1 !mul1mx mulmx1 mulmx0 mul0mx subr0 D.
    have -> : map_row (fun z : C => z^-1) (const_mx k2 : 'rV[C]_(1+1)) = const_mx (k2^-1).
      by apply/rowP => j; rewrite !mxE.
    rewrite D -scalar_mxM -[1%:M]/(1%:M) -raddfD /= scale_scalar_mx. apply: U.
    rewrite C_mulE C_addE C_mulE C_invE C_1E => E. apply: H12.
    have E' : Cadd k2 k1 = Cmul (Cmul (RtoC 2) k2) (Cmul half_C (Cadd C1 (Cmul k1 (Cinv k2)))).
      rewrite /half_C. have -> : RtoC (Rinv 2) = Cinv (RtoC 2).
        apply: Ceq; rewrite /RtoC /Cinv /Cnorm2 /=; field.
      field; split => // E2. have := f_equal fst E2. rewrite /RtoC /C0 /=. lra.
    rewrite E in E'. have -> : Cadd k1 k2 = Cadd k2 k1 by ring. rewrite E'. ring.
Qed.
