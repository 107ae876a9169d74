(** The S-matrix between outer layers does not depend on the basis of modes used in
    the inner ones. *)
From Coq Require Import Reals Lra.
From mathcomp Require Import all_ssreflect all_algebra.
From Verif Require Import Base Cplx CplxLemmas CField Model_Modes Spec_Modes Proof_Smatrix.
Import GRing.Theory.
Delimit Scope R_scope with coqR.
Local Open Scope ring_scope.

(** The modes of [md'] are obtained from those of [md] by a change [D] of the basis
    of field vectors and an invertible change of basis [W] that mixes modes of
    equal mode number only: it may reorder, rescale and mix eigenvectors. *)
Definition rebased {m} (D : 'M[C]_m) (md md' : mode m) (W : 'M[C]_m) : Prop :=
  W \in unitmx /\ m_kp md' = D *m m_kp md *m invmx D /\ m_phi md' = D *m m_phi md *m W
  /\ forall i j, W i j != 0 -> m_q md 0 i = m_q md' 0 j.
Definition same_layer {m} (D : 'M[C]_m) (md md' : mode m) : Prop := exists W, rebased D md md' W.

Lemma diag_swap {m} (W : 'M[C]_m) (f g : C -> C) (q q' : 'rV[C]_m) :
  (forall i j, W i j != 0 -> q 0 i = q' 0 j) -> (forall z, f z = g z) ->
  diag_mx (map_row f q) *m W = W *m diag_mx (map_row g q').
Proof.
  move=> H Hf. apply/matrixP => i j. rewrite mul_diag_mx mul_mx_diag !mxE.
  case: (eqVneq (W i j) 0) => [->|N]; first by rewrite mulr0 mul0r.
  by rewrite (H _ _ N) Hf mulrC.
Qed.

Lemma map_row_id {m} (q : 'rV[C]_m) : map_row id q = q.
Proof. by apply/rowP => j; rewrite mxE. Qed.

Lemma diag_swap_id {m} (W : 'M[C]_m) (q q' : 'rV[C]_m) :
  (forall i j, W i j != 0 -> q 0 i = q' 0 j) -> diag_mx q *m W = W *m diag_mx q'.
Proof. move=> H. rewrite -{1}(map_row_id q) -{1}(map_row_id q'). exact: diag_swap. Qed.

Lemma unit_row {m} (W : 'M[C]_m) j : W \in unitmx -> exists i, W i j != 0.
Proof.
  move=> U. case: (pickP (fun i => W i j != 0)) => [i H|H]; first by exists i.
  exfalso. have Z : col j W = 0 by apply/colP => i; rewrite !mxE; apply/eqP; move/negbFE: (H i).
  have E : (invmx W *m W) j j = 0.
    rewrite mxE big1 // => k _. have := f_equal (fun v : 'cV[C]_m => v k 0) Z. rewrite !mxE => ->. by rewrite mulr0.
  rewrite mulVmx // mxE eqxx in E. move: E => /eqP. by rewrite oner_eq0.
Qed.
Lemma unit_col {m} (W : 'M[C]_m) i : W \in unitmx -> exists j, W i j != 0.
Proof.
  move=> U. have [|j H] := unit_row W^T i; first by rewrite unitmx_tr.
  exists j. by rewrite mxE in H.
Qed.

Lemma invmx_prod {m} (A B : 'M[C]_m) : A \in unitmx -> B \in unitmx -> invmx (A *m B) = invmx B *m invmx A.
Proof.
  move=> UA UB. have U : A *m B \in unitmx by rewrite unitmx_mul UA.
  apply: (can_inj (mulKmx U)). by rewrite mulmxV // -mulmxA mulKVmx // mulmxV.
Qed.

Lemma rebased_refl {m} (md : mode m) : rebased 1%:M md md 1%:M.
Proof.
  split; first exact: unitmx1. split; first by rewrite invmx1 mulmx1 mul1mx. split; first by rewrite mulmx1 mul1mx.
  move=> i j. rewrite mxE. by case: (eqVneq i j) => [->|_] //; rewrite mulr0n eqxx.
Qed.

Lemma rebased_q {m} D (md md' : mode m) W : rebased D md md' W ->
  (forall j, m_q md 0 j != 0) <-> (forall j, m_q md' 0 j != 0).
Proof.
  move=> [U [_ [_ H]]]. split=> Hq j.
  - have [i /H <-] := unit_row W j U. exact: Hq.
  - have [i /H ->] := unit_col W j U. exact: Hq.
Qed.

(** the S-matrix seen in other bases of the first and the last layer *)
Definition resmat {m} (V W : 'M[C]_m) (M : smat m) : smat m :=
  mkSmat (invmx W *m S11 M *m V) (invmx W *m S12 M *m W) (invmx V *m S21 M *m V) (invmx V *m S22 M *m W).

Lemma step_rebased {m} D (cur cur' nxt nxt' : mode m) V W X t t' M M' :
  D \in unitmx -> rebased D cur cur' W -> rebased D nxt nxt' X ->
  step_core cur nxt t t' M = Ok M' -> step_core cur' nxt' t t' (resmat V W M) = Ok (resmat V X M').
Proof.
  move=> UD HW HX. have [UW [KW [PW QW]]] := HW. have [UX [KX [PX QX]]] := HX.
  move=> /step_core_form [[U1 [U2 [U3 U4]]] EM]. apply/step_core_form.
  have UVD : invmx D \in unitmx by rewrite unitmx_inv.
  have KPW : m_kp cur' *m m_phi cur' = D *m (m_kp cur *m m_phi cur) *m W by rewrite KW PW !mulmxA mulmxKV.
  have KPX : m_kp nxt' *m m_phi nxt' = D *m (m_kp nxt *m m_phi nxt) *m X by rewrite KX PX !mulmxA mulmxKV.
  have ETQ : TQ cur' nxt' = invmx W *m TQ cur nxt *m X.
    by rewrite /TQ PW PX invmx_prod ?unitmx_mul ?UD // invmx_prod // !mulmxA mulmxKV.
  have D1 : diag_mx (m_q cur') *m invmx W = invmx W *m diag_mx (m_q cur).
    apply: (can_inj (mulKmx UW)). by rewrite mulmxA -(diag_swap_id _ _ _ QW) mulmxK // mulKVmx.
  have ETP : TP cur' nxt' = invmx W *m TP cur nxt *m X.
    have UDK : D *m (m_kp cur *m m_phi cur) \in unitmx by rewrite unitmx_mul UD.
    rewrite /TP KPW KPX (invmx_prod _ W UDK UW) (invmx_prod D _ UD U2).
    have -> : diag_mx (m_q cur') *m (invmx W *m (invmx (m_kp cur *m m_phi cur) *m invmx D))
       = invmx W *m (diag_mx (m_q cur) *m invmx (m_kp cur *m m_phi cur)) *m invmx D by rewrite !mulmxA D1.
    have E := diag_swap X (fun z => z^-1) (fun z => z^-1) _ _ QX (fun _ => erefl).
    by rewrite -!mulmxA -E !mulmxA mulmxKV.
  have E11 : T_11 cur' nxt' = invmx W *m T_11 cur nxt *m X.
    by rewrite /T_11 ETQ ETP -mulmxDl -mulmxDr -scalemxAr -scalemxAl.
  have E12 : T_12 cur' nxt' = invmx W *m T_12 cur nxt *m X.
    by rewrite /T_12 ETQ ETP -mulmxBl -mulmxBr -scalemxAr -scalemxAl.
  have F : forall (Y : 'M[C]_m) (q q' : 'rV[C]_m) s, Y \in unitmx -> (forall i j, Y i j != 0 -> q 0 i = q' 0 j) ->
      phase q' s = invmx Y *m phase q s *m Y.
    move=> Y q q' s UV HV. rewrite -mulmxA /phase (diag_swap Y _ (fun z => Cexp (Ci * z * RtoC s)) _ _ HV) //. by rewrite mulKmx.
  have P1 := F W _ _ t UW QW. have P2 := F X _ _ t' UX QX.
  set d1 := phase (m_q cur) t in P1 U4 EM *. set d2 := phase (m_q nxt) t' in P2 EM *.
  have Q12 : phase (m_q cur') t *m S12 (resmat V W M) = invmx W *m (d1 *m S12 M) *m W.
    by rewrite P1 /= !mulmxA mulmxK.
  have Q11 : phase (m_q cur') t *m S11 (resmat V W M) = invmx W *m (d1 *m S11 M) *m V.
    by rewrite P1 /= !mulmxA mulmxK.
  have EX : T_11 cur' nxt' - phase (m_q cur') t *m S12 (resmat V W M) *m T_12 cur' nxt'
          = invmx W *m (T_11 cur nxt - d1 *m S12 M *m T_12 cur nxt) *m X.
    by rewrite Q12 E11 E12 mulmxBr mulmxBl !mulmxA mulmxK.
  have UVW : invmx W \in unitmx by rewrite unitmx_inv.
  split.
  - split; first by rewrite PW !unitmx_mul UD U1. split; first by rewrite KPW !unitmx_mul UD -unitmx_mul U2 UW.
    split; first by apply/(rebased_q D nxt nxt' X).
    by rewrite EX !unitmx_mul UVW U4.
  - have EI : invmx (T_11 cur' nxt' - phase (m_q cur') t *m S12 (resmat V W M) *m T_12 cur' nxt')
          = invmx X *m invmx (T_11 cur nxt - d1 *m S12 M *m T_12 cur nxt) *m W.
      by rewrite EX invmx_prod ?unitmx_mul ?UVW ?U4 // invmx_prod // invmxK mulmxA.
    set Y := invmx (T_11 cur nxt - _) in EI.
    have EZ11 : Z11 cur' nxt' (phase (m_q cur') t *m S11 (resmat V W M)) (phase (m_q cur') t *m S12 (resmat V W M))
       = invmx X *m Z11 cur nxt (d1 *m S11 M) (d1 *m S12 M) *m V.
      by rewrite /Z11 EI Q11 -/Y !mulmxA mulmxK.
    have EZ12 : Z12 cur' nxt' (phase (m_q cur') t *m S12 (resmat V W M)) = invmx X *m Z12 cur nxt (d1 *m S12 M) *m X.
      rewrite /Z12 EI -/Y Q12 E11 E12.
      have -> : invmx W *m (d1 *m S12 M) *m W *m (invmx W *m T_11 cur nxt *m X) - invmx W *m T_12 cur nxt *m X
         = invmx W *m (d1 *m S12 M *m T_11 cur nxt - T_12 cur nxt) *m X.
        by rewrite mulmxBr mulmxBl !mulmxA mulmxK.
      by rewrite !mulmxA mulmxK.
    rewrite EM /out EZ11 EZ12 E11 E12 P2 /resmat. cbn [S11 S12 S21 S22]. congr mkSmat.
    + by rewrite !mulmxA mulmxK.
    + by rewrite mulmxDr mulmxDl !mulmxA !mulmxK.
    + rewrite !mulmxDl mulmxDr mulmxDl !mulmxA !mulmxK //.
Qed.

Section Loop.
Context {m : nat} (D : 'M[C]_m) (ms ms' : seq (option (mode m))) (ts : seq R).
Hypothesis UD : D \in unitmx.
Hypothesis HW : forall l md, List.nth_error ms l = Some (Some md) ->
  exists md', List.nth_error ms' l = Some (Some md') /\ same_layer D md md'.

Lemma loop_rebased c : forall l V W Y M M',
  (forall md, List.nth_error ms l = Some (Some md) ->
     exists md', List.nth_error ms' l = Some (Some md') /\ rebased D md md' W) ->
  (forall md, List.nth_error ms (l + c.+1) = Some (Some md) ->
     exists md', List.nth_error ms' (l + c.+1) = Some (Some md') /\ rebased D md md' Y) ->
  smat_loop ms ts c.+1 l M = Ok M' -> smat_loop ms' ts c.+1 l (resmat V W M) = Ok (resmat V Y M').
Proof.
  elim: c => [|c IH] l V W Y M M' Hl HE; cbn [smat_loop]; rewrite /bind.
  - case E: (smat_step ms ts l M) => [M1|] // [<-].
    move/smat_step_core: E => [cur [nxt [t [t' [[L1 L2] [[L3 L4] HC]]]]]].
    have [cur' [C1 C2]] := Hl _ L1. rewrite addn1 in HE. have [nxt' [N1 N2]] := HE _ L3.
    have -> : smat_step ms' ts l (resmat V W M) = Ok (resmat V Y M1).
      apply/smat_step_core. exists cur', nxt', t, t'. split; first by []. split; first by [].
      exact: step_rebased C2 N2 HC.
    by [].
  - case E: (smat_step ms ts l M) => [M1|] // HL.
    move/smat_step_core: E => [cur [nxt [t [t' [[L1 L2] [[L3 L4] HC]]]]]].
    have [cur' [C1 C2]] := Hl _ L1. have [nxt' [N1 [X N2]]] := HW _ _ L3.
    have -> : smat_step ms' ts l (resmat V W M) = Ok (resmat V X M1).
      apply/smat_step_core. exists cur', nxt', t, t'. split; first by []. split; first by [].
      exact: step_rebased C2 N2 HC.
    apply: (IH l.+1 V X Y M1 M') => //; last by move: HE; rewrite addSnnS.
    move=> md Hm. exists nxt'. split=> //. by move: Hm; rewrite L3 => -[<-].
Qed.
End Loop.

(** The outer amplitudes in another basis, when the outer layers change by [W]. *)
Lemma exterior_rebased {m} (D W : 'M[C]_m) (ms ms' : seq (option (mode m))) (ts : seq R) a0 bN aN b0 :
  D \in unitmx -> W \in unitmx ->
  (forall l md, List.nth_error ms l = Some (Some md) ->
     exists md', List.nth_error ms' l = Some (Some md') /\ same_layer D md md') ->
  (forall l md, l = 0%N \/ l = (size ts).-1 -> List.nth_error ms l = Some (Some md) ->
     exists md', List.nth_error ms' l = Some (Some md') /\ rebased D md md' W) ->
  SolveExterior (W *m a0) (W *m bN) ms ts = Ok (W *m aN, W *m b0) -> SolveExterior a0 bN ms' ts = Ok (aN, b0).
Proof.
  move=> UD UW H HE. rewrite /SolveExterior /GetSMatrix /bind.
  case E0: (get_mode ms 0) => [md0|] //. have [md0' [M0 _]] := HE 0%N _ (or_introl erefl) (get_mode_ok _ _ _ E0).
  rewrite {1}/get_mode M0.
  have K : forall (A B : 'M[C]_m) (u v w : 'cV[C]_m), A *m (W *m u) + B *m (W *m v) = W *m w ->
      invmx W *m A *m W *m u + invmx W *m B *m W *m v = w.
    move=> A B u v w Hw. by rewrite -!mulmxA -mulmxDr Hw mulKmx.
  case E: (0%N == (size ts).-1) => //.
    rewrite /smat_id /= !mul0mx !mul1mx addr0 add0r => -[H1 H2].
    have I := can_inj (mulKmx UW). by rewrite (I _ _ _ H1) (I _ _ _ H2) addr0 add0r.
  rewrite subn0 ltn0. case Ec: ((size ts).-1) E HE => [|c] // _ HE.
  case EL: (smat_loop ms ts c.+1 0 smat_id) => [M|] // [H1 H2].
  have := loop_rebased D ms ms' ts UD H c 0%N W W W smat_id M.
  have -> : resmat W W smat_id = smat_id by rewrite /resmat /smat_id /= !mulmx1 !mulmx0 !mul0mx mulVmx.
  move=> -> //=; first by rewrite (K _ _ _ _ _ H1) (K _ _ _ _ _ H2).
  - move=> md Hm. exact: HE (or_introl erefl) Hm.
  - move=> md Hm. exact: HE (or_intror erefl) Hm.
Qed.

Lemma same_layer_sym {m} D (md md' : mode m) : D \in unitmx -> same_layer D md md' -> same_layer (invmx D) md' md.
Proof.
  move=> UD [W [U [K [P Q]]]]. exists (invmx W). split; first by rewrite unitmx_inv.
  split; first by rewrite K invmxK !mulmxA mulVmx // mul1mx mulmxKV.
  split; first by rewrite P !mulmxA mulVmx // mul1mx mulmxK.
  have E : diag_mx (m_q md') *m invmx W = invmx W *m diag_mx (m_q md).
    apply: (can_inj (mulKmx U)). by rewrite mulmxA -(diag_swap_id _ _ _ Q) mulmxK // mulKVmx.
  move=> i j N. move: (f_equal (fun A : 'M[C]_m => A i j) E). rewrite mul_diag_mx mul_mx_diag !mxE mulrC.
  by move/(mulfI N).
Qed.
