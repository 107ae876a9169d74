(** The S-matrix recursion solves the matching equations. *)
From Coq Require Import Reals Lra.
From mathcomp Require Import all_ssreflect all_algebra.
From Verif Require Import Base Cplx CplxLemmas CField Model_Modes Spec_Modes.
Import GRing.Theory.
Delimit Scope R_scope with coqR.
Local Open Scope ring_scope.

Ltac cring := rewrite ?C_addE ?C_oppE ?C_mulE ?C_0E ?C_1E;
  match goal with |- @eq _ ?a ?b => change (@eq C a b) end; ring.

Lemma half2 (x : C) : half_C * (x + x) = x.
Proof.
  rewrite /half_C. apply: Ceq; rewrite /= ?C_mulE ?C_addE /Cmul /Cadd /RtoC /=; field.
Qed.

Lemma Cexp_0 : Cexp C0 = C1.
Proof. rewrite /Cexp /Cscal /Cis /C0 /=. rewrite exp_0 cos_0 sin_0. by apply: Ceq => /=; ring. Qed.

Lemma phase_mul {m} (q : 'rV[C]_m) t (a : 'cV[C]_m) : phase q t *m a = forward_wave q t a.
Proof.
  rewrite /phase /forward_wave. apply/colP => j. by rewrite mul_diag_mx !mxE.
Qed.

Lemma forward_0 {m} (q : 'rV[C]_m) a : forward_wave q 0%coqR a = a.
Proof.
  apply/colP => j; rewrite mxE.
  have -> : Cmul (Cmul Ci (q 0 j)) (RtoC 0) = C0 by apply: Ceq; rewrite /=; ring.
  by rewrite Cexp_0 -C_1E mul1r.
Qed.

Lemma backward_end {m} (q : 'rV[C]_m) t b : backward_wave q t t b = b.
Proof.
  rewrite -[RHS](forward_0 q). apply/colP => j; rewrite !mxE.
  by rewrite Rminus_diag_eq.
Qed.

Lemma backward_front {m} (q : 'rV[C]_m) t b : backward_wave q t 0%coqR b = phase q t *m b.
Proof. rewrite phase_mul. apply/colP => j; rewrite !mxE. by rewrite Rminus_0_r. Qed.

Lemma inverse_ok {n} (A B : 'M[C]_n) : inverse A = Ok B -> A \in unitmx /\ B = invmx A.
Proof. rewrite /inverse; case: ifP => // H [<-]. by []. Qed.

Lemma row_inv_ok {n} (q r : 'rV[C]_n) : row_inv q = Ok r -> (forall j, q 0 j != 0) /\ r = map_row (fun z => z^-1) q.
Proof. rewrite /row_inv; case: ifP => // /forallP H [<-]. by []. Qed.

Lemma div_col {m} (q : 'rV[C]_m) (v : 'cV[C]_m) :
  \col_j (v j 0 / q 0 j) = diag_mx (map_row (fun z => z^-1) q) *m v.
Proof. apply/colP => j. by rewrite mul_diag_mx !mxE mulrC. Qed.

Lemma diag_inv {m} (q : 'rV[C]_m) : (forall j, q 0 j != 0) ->
  diag_mx q *m diag_mx (map_row (fun z => z^-1) q) = 1%:M
  /\ diag_mx (map_row (fun z => z^-1) q) *m diag_mx q = 1%:M.
Proof.
  move=> H; split; apply/matrixP => i j; rewrite mul_diag_mx !mxE;
  case: eqP => [->|] /=; rewrite ?mulr0 ?mulr0n ?mulr1n //.
  - by rewrite divff.
  - by rewrite mulVf.
Qed.

Lemma H_at_back {m} (md : mode m) t a b :
  H_field md t t a b = m_phi md *m (phase (m_q md) t *m a + b).
Proof. by rewrite /H_field phase_mul backward_end. Qed.

Lemma H_at_front {m} (md : mode m) t a b :
  H_field md t 0%coqR a b = m_phi md *m (a + phase (m_q md) t *m b).
Proof. by rewrite /H_field forward_0 backward_front. Qed.

Lemma E_at_back {m} (md : mode m) t a b :
  E_field md t t a b = m_kp md *m (m_phi md *m (diag_mx (map_row (fun z => z^-1) (m_q md))
                                               *m (phase (m_q md) t *m a - b))).
Proof. by rewrite /E_field div_col -phase_mul backward_end. Qed.

Lemma E_at_front {m} (md : mode m) t a b :
  E_field md t 0%coqR a b = m_kp md *m (m_phi md *m (diag_mx (map_row (fun z => z^-1) (m_q md))
                                               *m (a - phase (m_q md) t *m b))).
Proof. by rewrite /E_field div_col forward_0 backward_front. Qed.

(** Continuity in terms of the matrices Q and P of the code. *)
Lemma matching {m} (md md' : mode m) t t' (a b a' b' : 'cV[C]_m) :
  m_phi md \in unitmx -> m_kp md *m m_phi md \in unitmx ->
  (forall j, m_q md 0 j != 0) ->
  let Q := invmx (m_phi md) *m m_phi md' in
  let P := (diag_mx (m_q md) *m invmx (m_kp md *m m_phi md))
           *m ((m_kp md' *m m_phi md') *m diag_mx (map_row (fun z => z^-1) (m_q md'))) in
  (H_field md t t a b = H_field md' t' 0%coqR a' b' /\ E_field md t t a b = E_field md' t' 0%coqR a' b')
  <-> (phase (m_q md) t *m a + b = Q *m (a' + phase (m_q md') t' *m b')
       /\ phase (m_q md) t *m a - b = P *m (a' - phase (m_q md') t' *m b')).
Proof.
  move=> U1 U2 Hq Q P.
  rewrite H_at_back H_at_front E_at_back E_at_front.
  have [D1 D2] := diag_inv _ Hq.
  set iq := diag_mx (map_row _ (m_q md)) in D1 D2 *.
  set iq' := diag_mx (map_row _ (m_q md')).
  split; case=> H1 H2; split.
  - by rewrite /Q -mulmxA -H1 mulKmx.
  - rewrite /P -/iq'.
    have -> : (diag_mx (m_q md) *m invmx (m_kp md *m m_phi md) *m (m_kp md' *m m_phi md' *m iq')) *m
              (a' - phase (m_q md') t' *m b')
            = diag_mx (m_q md) *m (invmx (m_kp md *m m_phi md)
                *m (m_kp md' *m (m_phi md' *m (iq' *m (a' - phase (m_q md') t' *m b'))))).
      by rewrite !mulmxA.
    rewrite -H2.
    have -> : m_kp md *m (m_phi md *m (iq *m (phase (m_q md) t *m a - b)))
            = (m_kp md *m m_phi md) *m (iq *m (phase (m_q md) t *m a - b)) by rewrite !mulmxA.
    by rewrite mulKmx // mulmxA D1 mul1mx.
  - by rewrite H1 /Q mulmxA mulKVmx // .
  - rewrite H2 /P -/iq'.
    set X := a' - _.
    have -> : m_kp md *m (m_phi md *m (iq *m ((diag_mx (m_q md) *m invmx (m_kp md *m m_phi md)
                 *m (m_kp md' *m m_phi md' *m iq')) *m X)))
            = ((m_kp md *m m_phi md) *m ((iq *m diag_mx (m_q md)) *m (invmx (m_kp md *m m_phi md)
                 *m (m_kp md' *m (m_phi md' *m (iq' *m X)))))) by rewrite !mulmxA.
    by rewrite D2 mul1mx mulKVmx.
Qed.

Lemma split_T {m} (Q P : 'M[C]_m) (x b a' y : 'cV[C]_m) :
  (x + b = Q *m (a' + y) /\ x - b = P *m (a' - y))
  <-> (x = (half_C *: (Q + P)) *m a' + (half_C *: (Q - P)) *m y
       /\ b = (half_C *: (Q - P)) *m a' + (half_C *: (Q + P)) *m y).
Proof.
  rewrite -!scalemxAl !mulmxDl !mulmxDr !mulNmx !mulmxN.
  set u1 := Q *m a'; set u2 := Q *m y; set u3 := P *m a'; set u4 := P *m y.
  split; case=> H1 H2; split; apply/colP => j;
  move/colP/(_ j): H1; move/colP/(_ j): H2; rewrite !mxE;
  rewrite ?C_addE ?C_oppE ?C_mulE;
  move: (x j 0) (b j 0) (u1 j 0) (u2 j 0) (u3 j 0) (u4 j 0) => [x1 x2] [b1 b2] [p1 p2] [q1 q2] [r1 r2] [s1 s2];
  rewrite /half_C /Cadd /Copp /Cmul /RtoC /= => -[Ea Eb] [Ec Ed]; apply: Ceq => /=; lra.
Qed.

Lemma star {m} (d1 s11 s12 T11 T12 : 'M[C]_m) (ai al bl a' y : 'cV[C]_m) :
  T11 - (d1 *m s12) *m T12 \in unitmx -> al = s11 *m ai + s12 *m bl -> bl = T12 *m a' + T11 *m y ->
  (d1 *m al = T11 *m a' + T12 *m y
   <-> a' = invmx (T11 - (d1 *m s12) *m T12) *m (d1 *m (s11 *m ai) + (d1 *m (s12 *m T11) - T12) *m y)).
Proof.
  move=> U -> ->.
  have E : d1 *m (s11 *m ai + s12 *m (T12 *m a' + T11 *m y)) - (T11 *m a' + T12 *m y)
         = (d1 *m (s11 *m ai) + (d1 *m (s12 *m T11) - T12) *m y) - (T11 - (d1 *m s12) *m T12) *m a'.
    rewrite !(mulmxDl, mulmxDr, mulNmx, mulmxN, mulmxA).
    apply/colP => j; rewrite mxE [RHS]mxE; rewrite ?[fun_of_matrix (_ + _) _ _]mxE.
    set u1 := (d1 *m s11 *m ai). set u2 := _ *m T12 *m a'. set u3 := _ *m T11 *m y.
    set u4 := T11 *m a'. set u5 := T12 *m y.
    clearbody u1 u2 u3 u4 u5. rewrite !mxE. cring.
  split=> H.
  - apply: (canRL (mulKmx U)). apply/eqP. rewrite eq_sym -subr_eq0 -E subr_eq0. by apply/eqP.
  - apply/eqP. rewrite -subr_eq0 E subr_eq0 H mulKVmx //.
Qed.

Lemma get_mode_ok {m} (ms : seq (option (mode m))) l md : get_mode ms l = Ok md ->
  List.nth_error ms l = Some (Some md).
Proof. rewrite /get_mode. by case: (List.nth_error ms l) => [[x|]|] // [->]. Qed.

Lemma get_thickness_ok ts l t : get_thickness ts l = Ok t -> List.nth_error ts l = Some t.
Proof. rewrite /get_thickness. by case: (List.nth_error ts l) => // x [->]. Qed.

(** The meaning of an S-matrix between layers [i] and [l]. *)
Definition scatters {m} (ms : seq (option (mode m))) (ts : seq R) (i l : nat) (M : smat m) : Prop :=
  (forall a b, (forall k, (i <= k < l)%N -> continuous ms ts a b k) ->
     a l = S11 M *m a i + S12 M *m b l /\ b i = S21 M *m a i + S22 M *m b l)
  /\ (forall ai bl, exists a b, a i = ai /\ b l = bl /\ (forall k, (i <= k < l)%N -> continuous ms ts a b k)).

Lemma scatters_id {m} (ms : seq (option (mode m))) ts i : scatters ms ts i i smat_id.
Proof.
  split.
  - move=> a b _ /=. by rewrite !mul1mx !mul0mx addr0 add0r.
  - move=> ai bl. exists (fun _ => ai), (fun _ => bl). split=> //; split=> // k.
    rewrite leqNgt. by case: (k < i)%N.
Qed.

Lemma scatters_step {m} (ms : seq (option (mode m))) ts i l M M' :
  (i <= l)%N ->
  (forall md, List.nth_error ms l = Some (Some md) -> forall j, m_q md 0 j != 0) ->
  scatters ms ts i l M -> smat_step ms ts l M = Ok M' -> scatters ms ts i l.+1 M'
  /\ (forall md, List.nth_error ms l.+1 = Some (Some md) -> forall j, m_q md 0 j != 0).
Proof.
  move=> Hil Hq [F B]. rewrite /smat_step /bind addn1.
  case E1: (get_mode ms l) => [cur|] //. case E2: (get_mode ms l.+1) => [nxt|] //.
  move/get_mode_ok: E1 => E1. move/get_mode_ok: E2 => E2.
  case E3: (inverse (m_phi cur)) => [ip|] //. have [U1 ->] := inverse_ok _ _ E3.
  case E4: (inverse (m_kp cur *m m_phi cur)) => [ikp|] //. have [U2 ->] := inverse_ok _ _ E4.
  case E5: (row_inv (m_q nxt)) => [iq|] //. have [Hq' ->] := row_inv_ok _ _ E5.
  case E6: (get_thickness ts l) => [t|] //. case E7: (get_thickness ts l.+1) => [t'|] //.
  move/get_thickness_ok: E6 => E6. move/get_thickness_ok: E7 => E7.
  set Q := invmx (m_phi cur) *m m_phi nxt. set P := (diag_mx (m_q cur) *m _) *m _.
  set T11 := half_C *: (Q + P). set T12 := half_C *: (Q - P).
  set d1 := phase (m_q cur) t. set d2 := phase (m_q nxt) t'.
  case E8: (inverse _) => [ix|] //. have [U3 ->] := inverse_ok _ _ E8.
  set s11 := (invmx _ *m d1) *m S11 M. set s12 := (invmx _ *m _) *m d2.
  case=> <-. split; last by move=> md; rewrite E2 => -[<-].
  have Hc := Hq _ E1.
  have K : forall a b, continuous ms ts a b l <->
      (d1 *m a l = T11 *m a l.+1 + T12 *m (d2 *m b l.+1) /\ b l = T12 *m a l.+1 + T11 *m (d2 *m b l.+1)).
    move=> a b. rewrite /T11 /T12 -split_T.
    rewrite /continuous -(matching cur nxt t t') //. split.
    - move=> H; apply: H; split=> //.
    - move=> H md0 t0 md1 t1 [N1 N2] [N3 N4]. move: N1 N2 N3 N4. rewrite E1 E2 E6 E7.
      by move=> [<-] [<-] [<-] [<-].
  have S : forall a b : nat -> 'cV[C]_m, a l = S11 M *m a i + S12 M *m b l -> b l = T12 *m a l.+1 + T11 *m (d2 *m b l.+1) ->
      (d1 *m a l = T11 *m a l.+1 + T12 *m (d2 *m b l.+1) <-> a l.+1 = s11 *m a i + s12 *m b l.+1).
    move=> a b H1 H2. rewrite (star _ _ _ _ _ _ _ _ _ _ U3 H1 H2).
    by rewrite /s11 /s12 mulmxDr !mulmxA.
  split.
  - move=> a b H. rewrite /=.
    have Hl : continuous ms ts a b l by apply: H; rewrite Hil /=.
    have [F1 F2] : a l = S11 M *m a i + S12 M *m b l /\ b i = S21 M *m a i + S22 M *m b l.
      apply: F => k /andP [A1 A2]. apply: H. rewrite A1 /=. exact: ltnW.
    move/K: Hl => [L1 L2].
    have A := (proj1 (S a b F1 L2)) L1. split=> //.
    rewrite F2 L2 mulmxDr {1}A. 
    rewrite !(mulmxDl, mulmxDr, mulmxA) -!addrA. congr (_ + _). congr (_ + _).
    by rewrite [RHS]addrC addrA.
  - move=> ai bl.
    pose a' := s11 *m ai + s12 *m bl. pose bl0 := T12 *m a' + T11 *m (d2 *m bl).
    have [a [b [A1 [A2 A3]]]] := B ai bl0.
    have [F1 F2] := F a b A3.
    pose a2 := fun k => if k == l.+1 then a' else a k.
    pose b2 := fun k => if k == l.+1 then bl else b k.
    have N : forall k, (k <= l)%N -> (k == l.+1) = false by move=> k Hk; apply/negbTE; rewrite neq_ltn ltnS Hk.
    exists a2, b2. rewrite /a2 /b2 N // eqxx. split=> //. split=> //.
    move=> k /andP [B1 B2]. move: B2. rewrite ltnS leq_eqVlt => /orP [/eqP Ek | Lk].
    + subst k. apply/K. rewrite N // eqxx. 
      have L2 : b l = T12 *m a' + T11 *m (d2 *m bl) by rewrite A2.
      split=> //. have := S a2 b2. rewrite /a2 /b2 !eqxx !N //. move=> S'. apply/S' => //. by rewrite A1.
    + move=> md0 t0 md1 t1 N1 N2. rewrite !N //; last exact: ltnW. apply: (A3 k) => //. by rewrite B1.
Qed.

Lemma scatters_loop {m} (ms : seq (option (mode m))) ts c : forall i l M M',
  (i <= l)%N ->
  (forall md, List.nth_error ms l = Some (Some md) -> forall j, m_q md 0 j != 0) ->
  scatters ms ts i l M -> smat_loop ms ts c l M = Ok M' -> scatters ms ts i (l + c) M'.
Proof.
  elim: c => [|c IH] i l M M' Hil Hq H.
  - by rewrite addn0 => -[<-].
  - cbn [smat_loop bind]. case E: (smat_step ms ts l M) => [M1|] //= HL.
    have [H1 H2] := scatters_step _ _ _ _ _ _ Hil Hq H E.
    rewrite addnS -addSn. apply: (IH i l.+1 M1 M') => //. exact: leqW.
Qed.

Lemma propagating_neq {m} (q : 'rV[C]_m) : propagating q -> forall j, q 0 j != 0.
Proof. move=> H j. apply/eqP. exact: H. Qed.

Lemma smatrix_scatters {m} (ms : seq (option (mode m))) ts i j M :
  (forall md, List.nth_error ms i = Some (Some md) -> propagating (m_q md)) ->
  GetSMatrix i j ms ts = Ok M -> (i <= j)%N /\ scatters ms ts i j M.
Proof.
  move=> Hq. rewrite /GetSMatrix. case: (get_mode ms 0) => [md0|] //=.
  case: eqP => [-> [<-]|_]; first by split=> //; exact: scatters_id.
  case: ltnP => // Hij HL. split=> //.
  rewrite -(subnKC Hij). apply: (scatters_loop _ _ _ _ _ _ _ (leqnn i) _ (scatters_id ms ts i) HL).
  by move=> md E; apply: propagating_neq; apply: Hq.
Qed.

Lemma smatrix_maps {m} (ms : seq (option (mode m))) (ts : seq R) (i j : nat) (M : smat m) (a b : nat -> 'cV[C]_m) :
  (forall md, List.nth_error ms i = Some (Some md) -> propagating (m_q md)) ->
  GetSMatrix i j ms ts = Ok M ->
  (forall l, (i <= l < j)%N -> continuous ms ts a b l) ->
  a j = S11 M *m a i + S12 M *m b j /\ b i = S21 M *m a i + S22 M *m b j.
Proof. move=> Hq E. have [_ [F _]] := smatrix_scatters _ _ _ _ _ Hq E. exact: F. Qed.

Lemma smatrix_exists {m} (ms : seq (option (mode m))) (ts : seq R) (i j : nat) (M : smat m) (ai bj : 'cV[C]_m) :
  (forall md, List.nth_error ms i = Some (Some md) -> propagating (m_q md)) ->
  GetSMatrix i j ms ts = Ok M ->
  exists a b, a i = ai /\ b j = bj /\ (forall l, (i <= l < j)%N -> continuous ms ts a b l)
    /\ a j = S11 M *m ai + S12 M *m bj /\ b i = S21 M *m ai + S22 M *m bj.
Proof.
  move=> Hq E. have [_ [F B]] := smatrix_scatters _ _ _ _ _ Hq E.
  have [a [b [A1 [A2 A3]]]] := B ai bj. exists a, b.
  have [F1 F2] := F a b A3. by rewrite -A1 -A2.
Qed.

Lemma mx_ext {m n} (A B : 'M[C]_(m, n)) : (forall v : 'cV[C]_n, A *m v = B *m v) -> A = B.
Proof.
  move=> H. apply/matrixP => i j. have := H (delta_mx j 0).
  by rewrite -!colE => /matrixP /(_ i 0); rewrite !mxE.
Qed.

(** The S-matrix is the only one with that property. *)
Lemma smatrix_unique {m} (ms : seq (option (mode m))) (ts : seq R) (i j : nat) (M N : smat m) :
  (forall md, List.nth_error ms i = Some (Some md) -> propagating (m_q md)) ->
  GetSMatrix i j ms ts = Ok M ->
  (forall a b, (forall l, (i <= l < j)%N -> continuous ms ts a b l) ->
     a j = S11 N *m a i + S12 N *m b j /\ b i = S21 N *m a i + S22 N *m b j) ->
  N = M.
Proof.
  move=> Hq E H.
  have K : forall ai bj : 'cV[C]_m, S11 N *m ai + S12 N *m bj = S11 M *m ai + S12 M *m bj
                      /\ S21 N *m ai + S22 N *m bj = S21 M *m ai + S22 M *m bj.
    move=> ai bj. have [a [b [A1 [A2 [A3 [A4 A5]]]]]] := smatrix_exists _ _ _ _ _ ai bj Hq E.
    have [H1 H2] := H a b A3. split.
    - by rewrite -A4 H1 A1 A2.
    - by rewrite -A5 H2 A1 A2.
  case: N H K => N11 N12 N21 N22 H K; case: M E K => M11 M12 M21 M22 E /= K.
  congr mkSmat; apply: mx_ext => v.
  - have [] := K v 0. by rewrite !mulmx0 !addr0.
  - have [] := K 0 v. by rewrite !mulmx0 !add0r.
  - have [_] := K v 0. by rewrite !mulmx0 !addr0.
  - have [_] := K 0 v. by rewrite !mulmx0 !add0r.
Qed.

Lemma smatrix_trivial {m} (md : mode m) ms ts i :
  GetSMatrix i i (Some md :: ms) ts = Ok (mkSmat 1%:M 0 0 1%:M).
Proof. by rewrite /GetSMatrix /= eqxx. Qed.

Lemma smatrix_reversed {m} (md : mode m) ms ts i j : (j < i)%N ->
  GetSMatrix i j (Some md :: ms) ts = Err PlainException.
Proof.
  move=> H. rewrite /GetSMatrix /= H. case: eqP => // E. by rewrite E ltnn in H.
Qed.

(** * Merging identical neighbouring layers *)
Definition step_core {m} (cur nxt : mode m) (t t' : R) (M : smat m) : res (smat m) :=
  smat_step [:: Some cur; Some nxt] [:: t; t'] 0 M.

Lemma smat_step_core {m} (ms : seq (option (mode m))) ts l M M' :
  smat_step ms ts l M = Ok M' <->
  exists cur nxt t t', layer_is ms ts l cur t /\ layer_is ms ts l.+1 nxt t' /\ step_core cur nxt t t' M = Ok M'.
Proof.
  rewrite /step_core /smat_step addn1 add0n. split.
  - case E1: (get_mode ms l) => [cur|] //. case E2: (get_mode ms l.+1) => [nxt|] //.
    case E6: (get_thickness ts l) => [t|]; last first.
      move=> /=. case: (inverse _) => //= ?. case: (inverse _) => //= ?. by case: (row_inv _).
    case E7: (get_thickness ts l.+1) => [t'|]; last first.
      move=> /=. case: (inverse _) => //= ?. case: (inverse _) => //= ?. by case: (row_inv _).
    move=> H. exists cur, nxt, t, t'.
    by split; [split; [exact: get_mode_ok | exact: get_thickness_ok]
              | split; [split; [exact: get_mode_ok | exact: get_thickness_ok]|]].
  - move=> [cur [nxt [t [t' [[L1 L2] [[L3 L4] H]]]]]].
    by rewrite /get_mode /get_thickness L1 L2 L3 L4.
Qed.

Lemma smat_loop_app {m} (ms : seq (option (mode m))) ts c1 : forall c2 l M,
  smat_loop ms ts (c1 + c2) l M = bind (smat_loop ms ts c1 l M) (fun M' => smat_loop ms ts c2 (l + c1) M').
Proof.
  elim: c1 => [|c IH] c2 l M; first by rewrite /= addn0.
  rewrite addSn. cbn [smat_loop bind]. case: (smat_step ms ts l M) => [M1|] //=.
  by rewrite IH addSnnS.
Qed.

Lemma smat_loop_ext {m} (ms ms' : seq (option (mode m))) ts ts' c : forall l l' M,
  (forall k, (k <= c)%N -> List.nth_error ms (l + k) = List.nth_error ms' (l' + k)
                        /\ List.nth_error ts (l + k) = List.nth_error ts' (l' + k)) ->
  smat_loop ms ts c l M = smat_loop ms' ts' c l' M.
Proof.
  elim: c => [|c IH] l l' M H //. cbn [smat_loop].
  have [A1 A2] := H 0%N isT. have [B1 B2] := H 1%N isT. rewrite !addn0 in A1 A2.
  have -> : smat_step ms ts l M = smat_step ms' ts' l' M.
    by rewrite /smat_step /get_mode /get_thickness A1 A2 B1 B2.
  case: (smat_step ms' ts' l' M) => [M1|] //=. apply: IH => k Hk.
  have := H k.+1. rewrite ltnS !addSnnS. exact.
Qed.

Lemma phase_add {m} (q : 'rV[C]_m) t1 t2 : phase q (Rplus t1 t2) = phase q t1 *m phase q t2.
Proof.
  rewrite /phase mulmx_diag; congr diag_mx. apply/rowP => j. rewrite !mxE.
  rewrite -[RHS]/(Cmul _ _) -Cexp_add. congr Cexp.
  rewrite ?C_mulE. apply: Ceq; rewrite /=; ring.
Qed.

Lemma phase_comm {m} (q : 'rV[C]_m) t1 t2 : phase q t1 *m phase q t2 = phase q t2 *m phase q t1.
Proof. by rewrite -!phase_add Rplus_comm. Qed.

(** The result of a step, when it succeeds. *)
Lemma step_core_ok {m} (cur nxt : mode m) t t' M M' :
  step_core cur nxt t t' M = Ok M' <->
  let Q := invmx (m_phi cur) *m m_phi nxt in
  let P := (diag_mx (m_q cur) *m invmx (m_kp cur *m m_phi cur))
           *m ((m_kp nxt *m m_phi nxt) *m diag_mx (map_row (fun z => z^-1) (m_q nxt))) in
  let T11 := half_C *: (Q + P) in let T12 := half_C *: (Q - P) in
  let d1 := phase (m_q cur) t in let d2 := phase (m_q nxt) t' in
  let X := T11 - (d1 *m S12 M) *m T12 in
  m_phi cur \in unitmx /\ m_kp cur *m m_phi cur \in unitmx /\ (forall j, m_q nxt 0 j != 0)
  /\ X \in unitmx
  /\ M' = mkSmat ((invmx X *m d1) *m S11 M)
                 ((invmx X *m (d1 *m (S12 M *m T11) - T12)) *m d2)
                 (S21 M + S22 M *m (T12 *m ((invmx X *m d1) *m S11 M)))
                 (S22 M *m (T11 *m d2) + S22 M *m (T12 *m ((invmx X *m (d1 *m (S12 M *m T11) - T12)) *m d2))).
Proof.
  rewrite /step_core /smat_step /bind /=. rewrite /inverse /row_inv. cbv zeta.
  split.
  - case: ifP => // U1. case: ifP => // U2. case: ifP => // /forallP U3. case: ifP => // U4 [<-].
    by [].
  - move=> [U1 [U2 [U3 [U4 ->]]]]. rewrite U1 U2. case: ifP => [_|/forallP]; last by [].
    by rewrite U4.
Qed.

(** From a layer to an identical one nothing is reflected. *)
Lemma self_T {m} (md : mode m) :
  m_phi md \in unitmx -> m_kp md *m m_phi md \in unitmx -> (forall j, m_q md 0 j != 0) ->
  let Q := invmx (m_phi md) *m m_phi md in
  let P := (diag_mx (m_q md) *m invmx (m_kp md *m m_phi md))
           *m ((m_kp md *m m_phi md) *m diag_mx (map_row (fun z => z^-1) (m_q md))) in
  half_C *: (Q + P) = 1%:M /\ half_C *: (Q - P) = 0.
Proof.
  move=> U1 U2 U3 Q P.
  have -> : P = 1%:M.
    rewrite /P mulmxA mulmxKV //.
    by have [D1 _] := diag_inv _ U3.
  rewrite /Q mulVmx //. split; last by rewrite subrr scaler0.
  apply/matrixP => i j. by rewrite !mxE half2.
Qed.

Section Form.
Context {m : nat} (cur nxt : mode m).
Definition TQ := invmx (m_phi cur) *m m_phi nxt.
Definition TP := (diag_mx (m_q cur) *m invmx (m_kp cur *m m_phi cur))
           *m ((m_kp nxt *m m_phi nxt) *m diag_mx (map_row (fun z => z^-1) (m_q nxt))).
Definition T_11 : 'M[C]_m := half_C *: (TQ + TP).
Definition T_12 : 'M[C]_m := half_C *: (TQ - TP).
Definition adm (D12 : 'M[C]_m) : Prop :=
  m_phi cur \in unitmx /\ m_kp cur *m m_phi cur \in unitmx /\ (forall j, m_q nxt 0 j != 0)
  /\ T_11 - D12 *m T_12 \in unitmx.
Definition Z11 (D11 D12 : 'M[C]_m) := invmx (T_11 - D12 *m T_12) *m D11.
Definition Z12 (D12 : 'M[C]_m) := invmx (T_11 - D12 *m T_12) *m (D12 *m T_11 - T_12).
Definition out (D11 D12 s21 s22 d : 'M[C]_m) : smat m :=
  mkSmat (Z11 D11 D12) (Z12 D12 *m d) (s21 + s22 *m (T_12 *m Z11 D11 D12))
         ((s22 *m T_11 + s22 *m (T_12 *m Z12 D12)) *m d).
Lemma step_core_form t t' M M' :
  step_core cur nxt t t' M = Ok M' <->
  adm (phase (m_q cur) t *m S12 M)
  /\ M' = out (phase (m_q cur) t *m S11 M) (phase (m_q cur) t *m S12 M) (S21 M) (S22 M) (phase (m_q nxt) t').
Proof.
  rewrite step_core_ok. cbv zeta. rewrite -/TQ -/TP -/T_11 -/T_12.
  rewrite /adm /out /Z11 /Z12 !mulmxDl !mulmxA. tauto.
Qed.
End Form.

Lemma merge_core {m} (cur md nxt : mode m) t t1 t2 t' M M' :
  (exists M1, step_core cur md t (Rplus t1 t2) M = Ok M1 /\ step_core md nxt (Rplus t1 t2) t' M1 = Ok M')
  <-> (exists M1 M2, step_core cur md t t1 M = Ok M1 /\ step_core md md t1 t2 M1 = Ok M2
                  /\ step_core md nxt t2 t' M2 = Ok M').
Proof.
  set d1 := phase (m_q md) t1. set d2 := phase (m_q md) t2.
  have self : forall N M2, m_phi md \in unitmx -> m_kp md *m m_phi md \in unitmx -> (forall j, m_q md 0 j != 0) ->
      (step_core md md t1 t2 N = Ok M2 <-> M2 = mkSmat (d1 *m S11 N) (d1 *m S12 N *m d2) (S21 N) (S22 N *m d2)).
    move=> N M2 U1 U2 U3. rewrite step_core_form /adm /out /Z11 /Z12 /T_11 /T_12 /TQ /TP -/d1 -/d2.
    have [-> ->] := self_T _ U1 U2 U3.
    rewrite !mulmx0 !mul0mx !mulmx0 !subr0 !addr0 !mulmx1 invmx1 !mul1mx unitmx1.
    by split=> [[_ ->]|->] //.
  split.
  - move=> [M1 [/step_core_form [A1 E1] /step_core_form [A2 E2]]].
    have [U1 [U2 [U3 U4]]] := A2. have [_ [_ [V3 _]]] := A1.
    exists (out cur md (phase (m_q cur) t *m S11 M) (phase (m_q cur) t *m S12 M) (S21 M) (S22 M) d1).
    eexists. split; first by apply/step_core_form. split; first by apply/self.
    apply/step_core_form => /=. move: A2 E2. rewrite {}E1 /= phase_add -/d1 -/d2 !mulmxA.
    have -> : d2 *m d1 = d1 *m d2 by exact: phase_comm.
    by [].
  - move=> [M1 [M2 [/step_core_form [A1 E1] [E2 /step_core_form [A3 E3]]]]].
    have [U1 [U2 [U3 U4]]] := A3. have [_ [_ [V3 _]]] := A1.
    move/self: E2 => E2. rewrite {}E2 // in A3 E3.
    eexists. split; first by apply/step_core_form.
    apply/step_core_form => /=. move: A3 E3. rewrite {}E1 /= phase_add -/d1 -/d2 !mulmxA.
    have -> : d2 *m d1 = d1 *m d2 by exact: phase_comm.
    by [].
Qed.

Lemma nth_app1 {A} (l r : seq A) k : (k < size l)%N -> List.nth_error (l ++ r) k = List.nth_error l k.
Proof. by elim: l k => [|x l IH] [|k] //= /IH. Qed.
Lemma nth_app2 {A} (l r : seq A) k : List.nth_error (l ++ r) (size l + k) = List.nth_error r k.
Proof. by elim: l => //. Qed.

(** Layers [pre], twice [md], [post]: the outer S-matrix is that of the stack with
    one layer [md] of the summed thickness. *)
Lemma smatrix_merge {m} (first last : option (mode m)) (pre post : seq (option (mode m))) (md : mode m)
    (tfirst tlast t1 t2 : R) (tpre tpost : seq R) (M : smat m) :
  size tpre = size pre -> size tpost = size post ->
  GetSMatrix 0 (size pre + size post + 3)
    (first :: pre ++ [:: Some md, Some md & post] ++ [:: last])
    (tfirst :: tpre ++ [:: t1, t2 & tpost] ++ [:: tlast]) = Ok M
  <-> GetSMatrix 0 (size pre + size post + 2)
    (first :: pre ++ (Some md :: post) ++ [:: last])
    (tfirst :: tpre ++ (Rplus t1 t2 :: tpost) ++ [:: tlast]) = Ok M.
Proof.
  move=> Hs1 Hs2.
  set ms := _ :: pre ++ _ ++ _. set ts := _ :: tpre ++ _ ++ _.
  set ms' := _ :: pre ++ (Some md :: post) ++ _. set ts' := _ :: tpre ++ (_ :: tpost) ++ _.
  rewrite /GetSMatrix. 
  have -> : get_mode ms 0 = get_mode ms' 0 by [].
  case: (get_mode ms' 0) => [md0|] //=.
  rewrite !ifN_eq; [| by rewrite addnC | by rewrite addnC].
  rewrite !subn0.
  set p := size pre.
  have P1 : (p + size post + 3 = p + (3 + size post))%N by rewrite -addnA (addnC 3%N).
  have P2 : (p + size post + 2 = p + (2 + size post))%N by rewrite -addnA (addnC 2%N).
  rewrite P1 P2 !smat_loop_app !add0n.
  have L : forall k, (k <= p)%N -> List.nth_error ms k = List.nth_error ms' k /\ List.nth_error ts k = List.nth_error ts' k.
    move=> [|k] Hk //. rewrite /ms /ms' /ts /ts'. split; cbn [List.nth_error].
    - by rewrite !nth_app1.
    - by rewrite !nth_app1 // Hs1.
  have -> : smat_loop ms ts p 0 smat_id = smat_loop ms' ts' p 0 smat_id by apply: smat_loop_ext.
  case: (smat_loop ms' ts' p 0 smat_id) => [M0|]; last by [].
  cbn [bind].
  have [Lp1 Lp2] := L p (leqnn p).
  have N : forall k, List.nth_error ms (p.+1 + k) = List.nth_error [:: Some md, Some md & post ++ [:: last]] k
                 /\ List.nth_error ts (p.+1 + k) = List.nth_error [:: t1, t2 & tpost ++ [:: tlast]] k.
    move=> k. rewrite addSn. cbn [List.nth_error ms ts]. split; first by rewrite nth_app2.
    by rewrite /p -Hs1 nth_app2.
  have N' : forall k, List.nth_error ms' (p.+1 + k) = List.nth_error [:: Some md & post ++ [:: last]] k
                 /\ List.nth_error ts' (p.+1 + k) = List.nth_error [:: Rplus t1 t2 & tpost ++ [:: tlast]] k.
    move=> k. rewrite addSn. cbn [List.nth_error ms' ts']. split; first by rewrite nth_app2.
    by rewrite /p -Hs1 nth_app2.
  have [n0 n0'] := N 0%N. have [n1 n1'] := N 1%N. have [n2 n2'] := N 2%N.
  have [k0 k0'] := N' 0%N. have [k1 k1'] := N' 1%N.
  rewrite !(addn0, addnS) in n0 n0' n1 n1' n2 n2' k0 k0' k1 k1'.
  have R : forall M3, smat_loop ms ts (size post) p.+3 M3 = smat_loop ms' ts' (size post) p.+2 M3.
    move=> M3. apply: smat_loop_ext => k Hk.
    have [-> ->] : List.nth_error ms (p.+3 + k) = List.nth_error ms (p.+1 + k.+2)
             /\ List.nth_error ts (p.+3 + k) = List.nth_error ts (p.+1 + k.+2) by rewrite !addSnnS.
    have [-> ->] : List.nth_error ms' (p.+2 + k) = List.nth_error ms' (p.+1 + k.+1)
             /\ List.nth_error ts' (p.+2 + k) = List.nth_error ts' (p.+1 + k.+1) by rewrite !addSnnS.
    have [-> ->] := N k.+2. have [-> ->] := N' k.+1. by [].
  have S1 : (forall M3, (bind (smat_step ms ts p M0) (fun A => bind (smat_step ms ts p.+1 A) (fun B => smat_step ms ts p.+2 B))) = Ok M3
                    <-> bind (smat_step ms' ts' p M0) (fun A => smat_step ms' ts' p.+1 A) = Ok M3).
    move=> M3. split.
    - case E1: (smat_step ms ts p M0) => [A|] //=. case E2: (smat_step ms ts p.+1 A) => [B|] //= E3.
      move/smat_step_core: E1 => [c1 [x1 [s1 [u1 [[a1 a2] [[a3 a4] E1]]]]]].
      move/smat_step_core: E2 => [c2 [x2 [s2 [u2 [[b1 b2] [[b3 b4] E2]]]]]].
      move/smat_step_core: E3 => [c3 [x3 [s3 [u3 [[d1 d2] [[d3 d4] E3]]]]]].
      move: a1 a2 a3 a4 b1 b2 b3 b4 d1 d2 d3 d4. rewrite n0 n0' n1 n1' n2 n2' Lp1 Lp2.
      move=> a1 a2 [Ex1] [Eu1] [Ec2] [Es2] [Ex2] [Eu2] [Ec3] [Es3] d3 d4. subst.
      have [A' [F1 F2]] : exists A', step_core c1 c3 s1 (Rplus s2 s3) M0 = Ok A' /\ step_core c3 x3 (Rplus s2 s3) u3 A' = Ok M3.
        apply/merge_core. by exists A, B.
      have -> : smat_step ms' ts' p M0 = Ok A'.
        apply/smat_step_core. by exists c1, c3, s1, (Rplus s2 s3).
      apply/smat_step_core. exists c3, x3, (Rplus s2 s3), u3. by rewrite /layer_is k0 k0' k1 k1'.
    - case E1: (smat_step ms' ts' p M0) => [A|] //= E2.
      move/smat_step_core: E1 => [c1 [x1 [s1 [u1 [[a1 a2] [[a3 a4] E1]]]]]].
      move/smat_step_core: E2 => [c2 [x2 [s2 [u2 [[b1 b2] [[b3 b4] E2]]]]]].
      move: a3 a4 b1 b2 b3 b4. rewrite k0 k0' k1 k1'.
      move=> [Ex1] [Eu1] [Ec2] [Es2] b3 b4. subst.
      have [A' [B' [F1 [F2 F3]]]] : exists A' B', step_core c1 c2 s1 t1 M0 = Ok A' /\ step_core c2 c2 t1 t2 A' = Ok B'
                        /\ step_core c2 x2 t2 u2 B' = Ok M3.
        apply/merge_core. by exists A.
      have -> : smat_step ms ts p M0 = Ok A'.
        apply/smat_step_core. exists c1, c2, s1, t1. by rewrite /layer_is Lp1 Lp2.
      move=> /=.
      have -> : smat_step ms ts p.+1 A' = Ok B'.
        apply/smat_step_core. exists c2, c2, t1, t2. by rewrite /layer_is n0 n0' n1 n1'.
      apply/smat_step_core. exists c2, x2, t2, u2. by rewrite /layer_is n1 n1' n2 n2'.
  have E1 : smat_loop ms ts (3 + size post) p M0 =
       bind (bind (smat_step ms ts p M0) (fun A => bind (smat_step ms ts p.+1 A) (fun B => smat_step ms ts p.+2 B)))
            (fun M3 => smat_loop ms ts (size post) p.+3 M3).
    rewrite !addSn add0n. cbn [smat_loop]. case: (smat_step ms ts p M0) => [A|] //=.
    case: (smat_step ms ts p.+1 A) => [B|] //=.
  have E2 : smat_loop ms' ts' (2 + size post) p M0 =
       bind (bind (smat_step ms' ts' p M0) (fun A => smat_step ms' ts' p.+1 A))
            (fun M3 => smat_loop ms' ts' (size post) p.+2 M3).
    rewrite !addSn add0n. cbn [smat_loop]. by case: (smat_step ms' ts' p M0) => [A|] //=.
  rewrite E1 E2. 
  split.
  - case F: (bind (smat_step ms ts p M0) _) => [M3|] //= H.
    by rewrite (proj1 (S1 M3) F) /= -R.
  - case F: (bind (smat_step ms' ts' p M0) _) => [M3|] //= H.
    by rewrite (proj2 (S1 M3) F) /= R.
Qed.

(** The amplitudes of the outgoing waves: the fields of the whole stack exist and
    every field with the same incoming amplitudes has those outgoing ones. *)
Lemma exterior_solved {m} (ms : seq (option (mode m))) (ts : seq R) (a0 bN aN b0 : 'cV[C]_m) :
  (forall md, List.nth_error ms 0 = Some (Some md) -> propagating (m_q md)) ->
  SolveExterior a0 bN ms ts = Ok (aN, b0) ->
  let N := (size ts).-1 in
  (exists a b, a 0%N = a0 /\ b N = bN /\ a N = aN /\ b 0%N = b0
     /\ (forall l, (l < N)%N -> continuous ms ts a b l))
  /\ (forall a b, (forall l, (l < N)%N -> continuous ms ts a b l) -> a 0%N = a0 -> b N = bN ->
        a N = aN /\ b 0%N = b0).
Proof.
  move=> Hq. rewrite /SolveExterior /bind. case E: (GetSMatrix _ _ _ _) => [M|] // [<- <-] /=. split.
  - have [a [b [A1 [A2 [A3 [A4 A5]]]]]] := smatrix_exists _ _ _ _ _ a0 bN Hq E.
    exists a, b. by split=> //; split=> //; split=> //; split.
  - move=> a b H E1 E2. have := smatrix_maps _ _ _ _ _ a b Hq E. rewrite E1 E2. apply.
    move=> l /andP [_ L]. exact: H.
Qed.

Lemma interior_raises {m} k a0 bN (ms : seq (option (mode m))) (ts : seq R) :
  exists e, SolveInterior k a0 bN ms ts = Err e.
Proof.
  rewrite /SolveInterior /bind. case: (GetSMatrix _ _ _ _) => [M|e]; last by exists e.
  case: (GetSMatrix _ _ _ _) => [M'|e]; by [exists AttributeError | exists e].
Qed.
