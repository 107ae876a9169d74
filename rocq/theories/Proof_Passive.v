(** Energy balance inside a layer. *)
From Coq Require Import Reals Lra Lia.
From mathcomp Require Import all_ssreflect all_algebra.
From Verif Require Import Base Cplx CplxLemmas CField Model_Modes Spec_Modes Spec_Passive Proof_Sqrt
  Proof_Smatrix Proof_Modes.
Import GRing.Theory.
Delimit Scope R_scope with coqR.
Local Open Scope ring_scope.

(** * Derivatives of complex functions of a real variable *)
Definition cder (f : R -> C) (z : R) (d : C) : Prop :=
  derivable_pt_lim (fun x => Re (f x)) z (Re d) /\ derivable_pt_lim (fun x => Im (f x)) z (Im d).
Arguments cder f z d%R.

Lemma der_ext (f g : R -> R) z d : (forall x, f x = g x) -> derivable_pt_lim f z d -> derivable_pt_lim g z d.
Proof.
  move=> E H eps He. have [del Hd] := H eps He. exists del => h H0 H1. rewrite -!E. exact: Hd.
Qed.
Lemma der_eq (f : R -> R) z d d' : d = d' -> derivable_pt_lim f z d -> derivable_pt_lim f z d'.
Proof. by move=> ->. Qed.
Lemma cder_ext f g z d : (forall x, f x = g x) -> cder f z d -> cder g z d.
Proof. move=> E [A B]; split; [apply: der_ext A | apply: der_ext B] => x; by rewrite E. Qed.
Lemma cder_eq f z d d' : d = d' -> cder f z d -> cder f z d'.
Proof. by move=> ->. Qed.
Lemma cder_const c z : cder (fun _ => c) z 0.
Proof. split; exact: derivable_pt_lim_const. Qed.
Lemma cder_add f g z d e : cder f z d -> cder g z e -> cder (fun x => f x + g x) z (d + e).
Proof. move=> [A B] [A' B']. split; [exact: derivable_pt_lim_plus A A' | exact: derivable_pt_lim_plus B B']. Qed.
Lemma cder_mul f g z d e : cder f z d -> cder g z e -> cder (fun x => f x * g x) z (d * g z + f z * e).
Proof.
  move=> [A B] [A' B']. split.
  - have := derivable_pt_lim_minus _ _ _ _ _ (derivable_pt_lim_mult _ _ _ _ _ A A') (derivable_pt_lim_mult _ _ _ _ _ B B').
    apply: der_eq. rewrite /=. ring.
  - have := derivable_pt_lim_plus _ _ _ _ _ (derivable_pt_lim_mult _ _ _ _ _ A B') (derivable_pt_lim_mult _ _ _ _ _ B A').
    apply: der_eq. rewrite /=. ring.
Qed.
Lemma cder_scale c f z d : cder f z d -> cder (fun x => c * f x) z (c * d).
Proof. move=> H. have := cder_mul _ _ _ _ _ (cder_const c z) H. apply: cder_eq. by rewrite mul0r add0r. Qed.
Lemma cder_conj f z d : cder f z d -> cder (fun x => Cconj (f x)) z (Cconj d).
Proof. move=> [A B]; split=> //. exact: derivable_pt_lim_opp. Qed.
Lemma cder_sum (n : nat) (F : 'I_n -> R -> C) z (D : 'I_n -> C) :
  (forall i, cder (F i) z (D i)) -> cder (fun x => \sum_i F i x) z (\sum_i D i).
Proof.
  elim: n F D => [|n IH] F D H.
    rewrite big_ord0. apply: cder_ext (cder_const 0 z) => x; by rewrite big_ord0.
  rewrite big_ord_recl. apply: cder_ext (cder_add _ _ _ _ _ (H ord0) (IH (fun i => F (lift ord0 i)) _ (fun i => H (lift ord0 i)))) => x.
  by rewrite big_ord_recl.
Qed.

Lemma cder_exp (q : C) (z : R) :
  cder (fun x => Cexp (Cmul (Cmul Ci q) (RtoC x))) z (Ci * q * Cexp (Cmul (Cmul Ci q) (RtoC z))).
Proof.
  case: q => a b.
  have D1 : forall k x, derivable_pt_lim (fun x => k * x)%coqR x k.
    move=> k x. have := derivable_pt_lim_scal id k x 1 (derivable_pt_lim_id x). by rewrite Rmult_1_r.
  have De : derivable_pt_lim (fun x => exp (- b * x)) z (exp (- b * z) * - b)%coqR.
    exact: (derivable_pt_lim_comp (fun x => (- b * x)%coqR) exp z (- b)%coqR _ (D1 _ z) (derivable_pt_lim_exp _)).
  have Dc : derivable_pt_lim (fun x => cos (a * x)) z (- sin (a * z) * a)%coqR.
    exact: (derivable_pt_lim_comp (fun x => (a * x)%coqR) cos z a _ (D1 _ z) (derivable_pt_lim_cos _)).
  have Ds : derivable_pt_lim (fun x => sin (a * x)) z (cos (a * z) * a)%coqR.
    exact: (derivable_pt_lim_comp (fun x => (a * x)%coqR) sin z a _ (D1 _ z) (derivable_pt_lim_sin _)).
  have E : forall x, Cexp (Cmul (Cmul Ci (a, b)) (RtoC x)) = ((exp (- b * x) * cos (a * x)), (exp (- b * x) * sin (a * x)))%coqR.
    move=> x. rewrite /Cexp /Cscal /Cis /Cmul /Ci /RtoC /=.
    have -> : ((0 * a - 1 * b) * x - (0 * b + 1 * a) * 0 = - b * x)%coqR by ring.
    by have -> : ((0 * a - 1 * b) * 0 + (0 * b + 1 * a) * x = a * x)%coqR by ring.
  apply: (@cder_ext (fun x => ((exp (- b * x) * cos (a * x)), (exp (- b * x) * sin (a * x)))%coqR : C)); first by move=> x; rewrite E.
  rewrite E. split.
  - have := derivable_pt_lim_mult _ _ _ _ _ De Dc.
    apply: der_eq. rewrite /=. ring.
  - have := derivable_pt_lim_mult _ _ _ _ _ De Ds.
    apply: der_eq. rewrite /=. ring.
Qed.

Lemma cder_exp_back (q : C) (t z : R) :
  cder (fun x => Cexp (Cmul (Cmul Ci q) (RtoC (Rminus t x)))) z
       (- (Ci * q * Cexp (Cmul (Cmul Ci q) (RtoC (Rminus t z))))).
Proof.
  have [A B] := cder_exp q (Rminus t z).
  have D : derivable_pt_lim (fun x => (t - x)%coqR) z (-1)%coqR.
    have := derivable_pt_lim_minus _ _ _ _ _ (derivable_pt_lim_const t z) (derivable_pt_lim_id z).
    by apply: der_eq; ring.
  split.
  - have := derivable_pt_lim_comp _ _ _ _ _ D A.
    apply: der_eq. rewrite /Re /=. ring.
  - have := derivable_pt_lim_comp _ _ _ _ _ D B.
    apply: der_eq. rewrite /Im /=. ring.
Qed.

(** * Vectors *)
Definition vder {m} (F : R -> 'cV[C]_m) (z : R) (D : 'cV[C]_m) : Prop :=
  forall i, cder (fun x => F x i 0) z (D i 0).

Lemma vder_mul {m k} (A : 'M[C]_(k, m)) (F : R -> 'cV[C]_m) z D : vder F z D -> vder (fun x => A *m F x) z (A *m D).
Proof.
  move=> H i. rewrite mxE.
  apply: (@cder_ext (fun x => \sum_j A i j * F x j 0)); first by move=> x; rewrite mxE.
  apply: cder_sum => j. apply: cder_scale. exact: H.
Qed.
Lemma vder_eq {m} (F : R -> 'cV[C]_m) z D D' : D = D' -> vder F z D -> vder F z D'.
Proof. by move=> ->. Qed.
Lemma vder_ext {m} (F F' : R -> 'cV[C]_m) z D : (forall x, F x = F' x) -> vder F z D -> vder F' z D.
Proof. move=> E H i. apply: cder_ext (H i) => x; by rewrite E. Qed.

Lemma herm_der {m} (F G : R -> 'cV[C]_m) z D D' : vder F z D -> vder G z D' ->
  cder (fun x => herm (F x) (G x)) z (herm D (G z) + herm (F z) D').
Proof.
  move=> HF HG. rewrite /herm -big_split /=. apply: cder_sum => i.
  apply: cder_mul; [apply: cder_conj; exact: HF | exact: HG].
Qed.

(** * Hermitian products *)
Lemma herm_add_r {m} (u v w : 'cV[C]_m) : herm u (v + w) = herm u v + herm u w.
Proof. by rewrite /herm -big_split; apply: eq_bigr => i _; rewrite mxE mulrDr. Qed.
Lemma herm_scale_r {m} c (u v : 'cV[C]_m) : herm u (c *: v) = c * herm u v.
Proof. rewrite /herm mulr_sumr; apply: eq_bigr => i _; rewrite mxE. by rewrite mulrCA. Qed.
Lemma herm_conj {m} (u v : 'cV[C]_m) : herm u v = Cconj (herm v u).
Proof.
  rewrite /herm. have -> : forall F : 'I_m -> C, Cconj (\sum_i F i) = \sum_i Cconj (F i).
    move=> F. apply: (big_morph Cconj) => [x y|]; apply: Ceq; rewrite /=; ring.
  apply: eq_bigr => i _. move: (u i 0) (v i 0) => x y. apply: Ceq => /=; ring.
Qed.
Lemma herm_add_l {m} (u v w : 'cV[C]_m) : herm (u + v) w = herm u w + herm v w.
Proof. rewrite herm_conj herm_add_r (herm_conj u) (herm_conj v). move: (herm w u) (herm w v) => x y. apply: Ceq => /=; ring. Qed.
Lemma herm_scale_l {m} c (u v : 'cV[C]_m) : herm (c *: u) v = Cconj c * herm u v.
Proof. rewrite herm_conj herm_scale_r (herm_conj u). move: (herm v u) => x. apply: Ceq => /=; ring. Qed.
Lemma herm_self {m} (u : 'cV[C]_m) : (0 <= Re (herm u u))%coqR /\ Im (herm u u) = 0%coqR.
Proof.
  rewrite /herm. apply: (big_ind (fun x : C => 0 <= Re x /\ Im x = 0)%coqR).
  - rewrite /=; lra.
  - move=> [x x'] [y y'] /= [A B] [A' B']. rewrite B B'. lra.
  - move=> i _. case: (u i 0) => x y. rewrite /=. nra.
Qed.
Lemma herm_self_pos {m} (u : 'cV[C]_m) : u <> 0 -> (0 < Re (herm u u))%coqR.
Proof.
  move=> H. have [A _] := herm_self u. case: (Rle_lt_or_eq_dec _ _ A) => // /esym E.
  exfalso. apply: H.
  have P : forall (l : seq 'I_m), (0 <= Re (\sum_(i <- l) (Cconj (u i 0) * u i 0)))%coqR
     /\ (Re (\sum_(i <- l) (Cconj (u i 0) * u i 0)) = 0%coqR -> forall i, i \in l -> u i 0 = 0).
    elim=> [|j l [IH1 IH2]]; first by rewrite big_nil /=; split; [lra|].
    rewrite big_cons.
    have S : Re (Cconj (u j 0) * u j 0 + \sum_(i <- l) Cconj (u i 0) * u i 0)
       = Rplus (Cnorm2 (u j 0)) (Re (\sum_(i <- l) Cconj (u i 0) * u i 0)).
      by rewrite /=; move: (u j 0) => [x y] /=; rewrite /Cnorm2 /=; ring.
    rewrite S. have N2 := Cnorm2_nonneg (u j 0).
    split; first by lra.
    move=> E0 i. have Z : Re (\sum_(i <- l) Cconj (u i 0) * u i 0) = 0%coqR by lra.
    rewrite in_cons => /orP [/eqP ->|]; last exact: IH2.
    have : Cnorm2 (u j 0) = 0%coqR by lra. move: (u j 0) => [x y]. rewrite /Cnorm2 /= => Q.
    have -> : x = 0%coqR by nra. have -> : y = 0%coqR by nra.
    by [].
  apply/colP => i. rewrite mxE. exact: (proj2 (P _) E) (mem_index_enum i).
Qed.
(** real matrices move across *)
Lemma herm_real_move {m k} (A : 'M[C]_(m, k)) (u : 'cV[C]_m) (v : 'cV[C]_k) :
  (forall i j, Im (A i j) = 0%coqR) -> herm u (A *m v) = herm (A^T *m u) v.
Proof.
  move=> HA. rewrite /herm.
  have L : forall i, Cconj (u i 0) * (A *m v) i 0 = \sum_j Cconj (u i 0) * (A i j * v j 0).
    by move=> i; rewrite mxE mulr_sumr.
  rewrite (eq_bigr _ (fun i _ => L i)) exchange_big /=. apply: eq_bigr => j _.
  have -> : Cconj ((A^T *m u) j 0) = \sum_i A i j * Cconj (u i 0).
    rewrite mxE. have -> : forall F : 'I_m -> C, Cconj (\sum_i F i) = \sum_i Cconj (F i).
      move=> F. apply: (big_morph Cconj) => [x y|]; apply: Ceq; rewrite /=; ring.
    apply: eq_bigr => i _. rewrite mxE. have := HA i j. move: (A i j) (u i 0) => [a b] [x y] /= ->.
    apply: Ceq => /=; ring.
  rewrite mulr_suml. apply: eq_bigr => i _. by rewrite mulrA (mulrC _ (A i j)).
Qed.
