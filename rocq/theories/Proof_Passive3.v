(** Power flux through a stack of layers; plane waves in a uniform outer medium. *)
From Coq Require Import Reals Lra Psatz.
From mathcomp Require Import all_ssreflect all_algebra.
From Verif Require Import Base Cplx CplxLemmas CField Model_Modes Spec_Modes Proof_Sqrt Proof_Smatrix Proof_Modes
  Spec_Passive Proof_Passive Proof_Passive2 Model_TRCWA.
Import GRing.Theory.
Delimit Scope R_scope with coqR.
Local Open Scope ring_scope.

(** * The layers of a stack whose S-matrix exists *)
Lemma loop_layers {m} (ms : seq (option (mode m))) ts c : forall l M M',
  smat_loop ms ts c l M = Ok M' ->
  forall k, (k < c)%N -> (exists md t, layer_is ms ts (l + k) md t)
    /\ (exists md t, layer_is ms ts (l + k).+1 md t /\ propagating (m_q md)).
Proof.
  elim: c => [|c IH] l M M' //. cbn [smat_loop]. rewrite /bind.
  case E: (smat_step ms ts l M) => [M1|] // L k Hk.
  have [cur [nxt [t [t' [L1 [L2 H]]]]]] := (smat_step_core _ _ _ _ _).1 E.
  have [_ [_ [Hq _]]] := (step_core_ok _ _ _ _ _ _).1 H.
  case: k Hk => [_|k Hk]; last by rewrite -addSnnS; exact: IH L k Hk.
  rewrite addn0. split; first by exists cur, t.
  exists nxt, t'. split=> // j. by apply/eqP.
Qed.

Lemma smatrix_layers {m} (ms : seq (option (mode m))) ts N M : (0 < N)%N ->
  GetSMatrix 0 N ms ts = Ok M ->
  (forall l, (l <= N)%N -> exists md t, layer_is ms ts l md t)
  /\ (forall l md t, (0 < l <= N)%N -> layer_is ms ts l md t -> propagating (m_q md)).
Proof.
  move=> HN. rewrite /GetSMatrix /bind. case: (get_mode ms 0) => [md0|] //.
  case: eqP => [E|_]; first by rewrite -E in HN. rewrite ltn0 subn0 => L.
  have K := loop_layers _ _ _ _ _ _ L. split.
  - move=> [|l] Hl; first by have [H _] := K 0%N HN.
    have [_ [md [t [H _]]]] := K l Hl. by exists md, t.
  - move=> [|l] md t // /andP [_ Hl] [H1 _].
    have [_ [md' [t' [[H2 _] P]]]] := K l Hl. rewrite add0n in H2.
    rewrite H2 in H1. by case: H1 => <-.
Qed.

Lemma layer_is_unique {m} (ms : seq (option (mode m))) ts l md t md' t' :
  layer_is ms ts l md t -> layer_is ms ts l md' t' -> md = md' /\ t = t'.
Proof. move=> [A B] [A' B']. rewrite A in A'. rewrite B in B'. by case: A' B' => -> [->]. Qed.

(** The power that enters the last layer is at most the power that leaves the first. *)
Lemma stack_power {n} (omega : C) (kx ky : 'rV[C]_n) (ms : seq (option (mode (n + n)))) ts N a b md0 t0 mdN tN :
  omega <> C0 -> (0 <= Im omega)%coqR -> real_row kx -> real_row ky -> (0 < N)%N ->
  (forall l, (l <= N)%N -> exists md t, layer_is ms ts l md t) ->
  (forall l md t, (l <= N)%N -> layer_is ms ts l md t -> propagating (m_q md)) ->
  (forall l md t, (0 < l < N)%N -> layer_is ms ts l md t -> passive_layer omega kx ky md /\ (0 <= t)%coqR) ->
  (forall l, (l < N)%N -> continuous ms ts a b l) ->
  layer_is ms ts 0 md0 t0 -> layer_is ms ts N mdN tN ->
  (power_at omega mdN tN 0 (a N) (b N) <= power_at omega md0 t0 t0 (a 0%N) (b 0%N))%coqR.
Proof.
  move=> Ho Io Rx Ry HN Lx Pr Pa Cn L0 LN.
  have K : forall k md t, (k < N)%N -> layer_is ms ts k.+1 md t ->
     (power_at omega md t 0 (a k.+1) (b k.+1) <= power_at omega md0 t0 t0 (a 0%N) (b 0%N))%coqR.
    elim=> [|k IH] md t Hk L.
    - apply: Req_le. apply: esym. apply: (interface_power omega ms ts a b 0) => //; first exact: Cn.
      + exact: Pr L0.
      + exact: Pr L.
    - have [md' [t' L']] := Lx k.+1 (ltnW Hk).
      have [Pl Ht] := Pa k.+1 md' t' Hk L'.
      have I := IH md' t' (ltnW Hk) L'.
      have D := layer_power omega kx ky md' t' (a k.+1) (b k.+1) 0 t' Ho Io Rx Ry Pl Ht.
      have E := interface_power omega ms ts a b k.+1 md' t' md t Ho (Cn _ Hk) L' L (Pr _ _ _ (ltnW Hk) L') (Pr _ _ _ Hk L).
      rewrite -E. lra.
  case: N HN LN K {Lx Pr Pa Cn} => // N _ LN K. exact: K.
Qed.

(** Without loss the two are equal. *)
Lemma stack_power_lossless {n} (omega : C) (kx ky : 'rV[C]_n) (ms : seq (option (mode (n + n)))) ts N a b md0 t0 mdN tN :
  omega <> C0 -> Im omega = 0%coqR -> real_row kx -> real_row ky -> (0 < N)%N ->
  (forall l, (l <= N)%N -> exists md t, layer_is ms ts l md t) ->
  (forall l md t, (l <= N)%N -> layer_is ms ts l md t -> propagating (m_q md)) ->
  (forall l md t, (0 < l < N)%N -> layer_is ms ts l md t -> lossless_layer omega kx ky md) ->
  (forall l, (l < N)%N -> continuous ms ts a b l) ->
  layer_is ms ts 0 md0 t0 -> layer_is ms ts N mdN tN ->
  power_at omega mdN tN 0 (a N) (b N) = power_at omega md0 t0 t0 (a 0%N) (b 0%N).
Proof.
  move=> Ho Io Rx Ry HN Lx Pr Pa Cn L0 LN.
  have K : forall k md t, (k < N)%N -> layer_is ms ts k.+1 md t ->
     power_at omega md t 0 (a k.+1) (b k.+1) = power_at omega md0 t0 t0 (a 0%N) (b 0%N).
    elim=> [|k IH] md t Hk L.
    - apply: esym. apply: (interface_power omega ms ts a b 0) => //; first exact: Cn.
      + exact: Pr L0.
      + exact: Pr L.
    - have [md' [t' L']] := Lx k.+1 (ltnW Hk).
      have Pl := Pa k.+1 md' t' Hk L'.
      have I := IH md' t' (ltnW Hk) L'.
      have D := layer_power_lossless omega kx ky md' t' (a k.+1) (b k.+1) 0 t' Ho Io Rx Ry Pl.
      have E := interface_power omega ms ts a b k.+1 md' t' md t Ho (Cn _ Hk) L' L (Pr _ _ _ (ltnW Hk) L') (Pr _ _ _ Hk L).
      by rewrite -E D.
  case: N HN LN K {Lx Pr Pa Cn} => // N _ LN K. exact: K.
Qed.

(** * Uniform layers *)
Lemma herm_scalar {m} (c : C) (v : 'cV[C]_m) : herm v (c%:M *m v) = c * herm v v.
Proof. by rewrite mul_scalar_mx herm_scale_r. Qed.

Lemma kp_uniform_patterned {n} (omega e : C) (kx ky : 'rV[C]_n) :
  MakeKP_uniform omega e kx ky = MakeKP_patterned omega (e%:M) kx ky.
Proof. by rewrite /MakeKP_uniform /MakeKP_patterned mul_mx_scalar -scalemxAl. Qed.

Lemma uniform_layer_ok {n} omega (kx ky : 'rV[C]_n) e md : uniform_layer omega kx ky e = Ok md ->
  e <> C0 /\ m_q md = (Solve_uniform omega kx ky e).1 /\ m_phi md = 1%:M
  /\ m_kp md = MakeKP_uniform omega (e^-1) kx ky.
Proof. rewrite /uniform_layer. case: eqP => // He [<-]. by []. Qed.

Lemma uniform_modes_of {n} omega (kx ky : 'rV[C]_n) e md : uniform_layer omega kx ky e = Ok md ->
  propagating (m_q md) -> modes_of omega kx ky md (e%:M) ((e^-1)%:M).
Proof.
  move=> /uniform_layer_ok [He [Eq [Ep Ek]]] Pr. split; first by rewrite Ek kp_uniform_patterned.
  split=> //. rewrite Ek Ep Eq. exact: (uniform_eigen omega e kx ky He).
Qed.

Lemma Im_scaled (c h : C) : Im h = 0%coqR -> Im (c * h)%R = (Im c * Re h)%coqR.
Proof. move: c h => [c1 c2] [h1 h2] /= ->. rewrite /=. ring. Qed.

Lemma gain_free_scalar {m} (c : C) : (0 <= Im c)%coqR -> gain_free (c%:M : 'M[C]_m).
Proof.
  move=> Hc v. rewrite herm_scalar. have [P Z] := herm_self v. rewrite Im_scaled //. exact: Rmult_le_pos.
Qed.
Lemma lossless_scalar {m} (c : C) : Im c = 0%coqR -> lossless (c%:M : 'M[C]_m).
Proof. move=> Hc v. rewrite herm_scalar. have [P Z] := herm_self v. rewrite Im_scaled // Hc. ring. Qed.

Lemma Im_neg_inv (s : C) : s <> C0 -> Im (- s^-1)%R = (Im s / Cnorm2 s)%coqR.
Proof.
  move=> Hs. have := Cnorm2_pos _ Hs. case: s {Hs} => s1 s2. rewrite C_oppE C_invE /Cinv /Copp /Cnorm2 /= => P.
  field. lra.
Qed.

Lemma uniform_passive {n} omega (kx ky : 'rV[C]_n) e md : uniform_layer omega kx ky e = Ok md ->
  propagating (m_q md) -> omega <> C0 -> (0 <= Im (e * omega)%R)%coqR -> passive_layer omega kx ky md.
Proof.
  move=> U Pr Ho G. have [He _] := uniform_layer_ok _ _ _ _ _ U.
  exists (e%:M), ((e^-1)%:M). split; first exact: uniform_modes_of. rewrite !scale_scalar_mx. split.
  - apply: gain_free_scalar. by rewrite mulrC.
  - apply: gain_free_scalar. rewrite mulNr -invfM Im_neg_inv.
      rewrite mulrC. apply: Rmult_le_pos => //. apply: Rlt_le. apply: Rinv_0_lt_compat. apply: Cnorm2_pos.
      exact: Cmul_neq_0.
    exact: Cmul_neq_0.
Qed.

Lemma uniform_lossless {n} omega (kx ky : 'rV[C]_n) e md : uniform_layer omega kx ky e = Ok md ->
  propagating (m_q md) -> omega <> C0 -> Im (e * omega)%R = 0%coqR -> lossless_layer omega kx ky md.
Proof.
  move=> U Pr Ho G. have [He _] := uniform_layer_ok _ _ _ _ _ U.
  exists (e%:M), ((e^-1)%:M). split; first exact: uniform_modes_of. rewrite !scale_scalar_mx. split.
  - apply: lossless_scalar. by rewrite mulrC.
  - apply: lossless_scalar. rewrite mulNr -invfM Im_neg_inv; last exact: Cmul_neq_0.
    rewrite mulrC G. rewrite /Rdiv. ring.
Qed.
