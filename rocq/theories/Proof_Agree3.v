(** TRCWA and the transfer-matrix code agree on stacks of uniform layers. *)
From Coq Require Import Reals ZArith String Lra Lia Psatz.
From mathcomp Require Import all_ssreflect all_algebra.
From Verif Require Import Base PyVal Cplx CplxLemmas CField Model_Lattice Spec_Lattice Model_Stack Model_Modes Model_TRCWA
  Spec_TRCWA Spec_Film Spec_Agree Proof_Init Proof_Init2 Proof_TRCWA Proof_TRCWA2 Proof_Total Proof_Total2 Proof_Lossless.
From Verif Require Model_TMM Spec_TMM Proof_TMM Proof_TMM5 Proof_Agree2.
Import GRing.Theory.
Delimit Scope R_scope with coqR.
Delimit Scope Z_scope with coqZ.
Local Open Scope ring_scope.

Lemma sq_pm (a b : C) : Cmul a a = Cmul b b -> a = b \/ a = Copp b.
Proof.
  move=> E. have : Cmul (Csub a b) (Cadd a b) = C0.
    transitivity (Csub (Cmul a a) (Cmul b b)); [ring | rewrite E; ring].
  case/Proof_TMM.Cmul_integral => H; [left | right].
  - transitivity (Cadd (Csub a b) b); [ring | rewrite H; ring].
  - transitivity (Csub (Cadd a b) b); [ring | rewrite H; ring].
Qed.

Lemma zip3_drop (ns ms : seq C) (ds : seq R) : size ns = size ms -> size ms = size ds ->
  map (fun p : C * C * R => (snd (fst p), snd p)) (zip (zip ns ms) ds) = zip ms ds.
Proof. elim: ns ms ds => [|n ns IH] [|m ms] [|d ds] //= [E1] [E2]. by rewrite IH. Qed.
Lemma zip3_signs om (ns ms : seq C) (films : seq (R * eps_val)) :
  map (fun n => Cmul n n) ns = map (fun p => eps_C p.2) films -> size ms = size films ->
  (forall i n p, List.nth_error ms i = Some n -> List.nth_error films i = Some p -> index_of om (eps_C p.2) n) ->
  forall q, List.In q (zip (zip ns ms) (map fst films)) -> snd (fst q) = fst (fst q) \/ snd (fst q) = Copp (fst (fst q)).
Proof.
  elim: ns ms films => [|n ns IH] [|m ms] [|p films] //= [En E] [S] H q [<-|Hq] /=.
    have [Em _] := H 0%N m p erefl erefl. apply: sq_pm. by rewrite Em.
  apply: (IH ms films) => // i n' p' H1 H2. exact: (H i.+1).
Qed.

Lemma agree_films argsort arcsin c f u films ns pol x r t D :
  sorts argsort -> Spec_TMM.inverts_sine arcsin -> Spec_TMM.principal arcsin ->
  (0 < t_top c)%coqR -> (0 < t_bottom c)%coqR -> (0 < f)%coqR -> (0 < Re u)%coqR -> (0 <= Im u)%coqR ->
  map (fun n => Cmul n n) ns = map (fun p => eps_C p.2) films ->
  film_stack argsort c (Cmul (RtoC f) u) films = Ok x -> RT_Solve true x = Ok (r, t) ->
  Model_TMM.coh_tmm arcsin pol (tmm_indices c u ns) (tmm_depths (map fst films)) C0 (1 / f)%coqR = Ok D ->
  Spec_TMM.no_opaque_layer D ->
  let loss := exp (- (4 * PI * sqrt (t_top c) * f * Im u))%coqR in
  r = RtoC (loss * Model_TMM.c_R D)%coqR /\ t = RtoC (loss * Model_TMM.c_T D)%coqR.
Proof.
  move=> Hs Hinv Hpri Ht Hb Hf Hu HI Hn Hx HRT HD Hop loss.
  have Pi := PI_RGT_0. have Hpf : (0 < 2 * PI * f)%coqR by nra.
  pose om := Cmul (RtoC (2 * PI)%coqR) (Cmul (RtoC f) u).
  have Eo : om = ((2 * PI * f * Re u)%coqR, (2 * PI * f * Im u)%coqR).
    by rewrite /om; case: (u) => a b; apply: injective_projections; rewrite /=; ring.
  have Ho1 : (0 < Re om)%coqR by rewrite Eo /=; nra.
  have Ho2 : (0 <= Im om)%coqR by rewrite Eo /=; nra.
  have Ho : om <> C0 by move=> E; move: Ho1; rewrite E /=; lra.
  have [ms [Sm [Hm HX]]] := film_rt argsort c _ films x r t Hs Ht Hb Ho (Rlt_le _ _ Ho1) Ho2 Hx HRT.
  have Sn : size ns = size films by have := f_equal size Hn; rewrite !size_map.
  pose l := zip (zip ns ms) (map fst films).
  have Sp0 := sqrt_lt_R0 _ Ht. have SpN := sqrt_lt_R0 _ Hb.
  have E1 : List.map (fun p : C * C * R => fst (fst p)) l = ns.
    change (map (fun p : C * C * R => fst (fst p)) l = ns). rewrite (map_comp fst fst) /l.
    have -> : map fst (zip (zip ns ms) (map fst films)) = zip ns ms.
      by apply: (@unzip1_zip); rewrite size_map size_zip Sn Sm minnn.
    by apply: unzip1_zip; rewrite Sn Sm.
  have E2 : List.map (fun p : C * C * R => Fin (snd p)) l = map Fin (map fst films).
    change (map (fun p : C * C * R => Fin (snd p)) l = map Fin (map fst films)). rewrite (map_comp Fin snd) /l. congr map.
    by apply: unzip2_zip; rewrite size_map size_zip Sn Sm minnn.
  have E3 : List.map (fun p : C * C * R => (snd (fst p), snd p)) l = zip ms (map fst films).
    by apply: zip3_drop; rewrite ?size_map ?Sm ?Sn.
  have HD' : Model_TMM.coh_tmm arcsin pol
     (List.map (Cmul u) (RtoC (sqrt (t_top c)) :: (List.map (fun p : C * C * R => fst (fst p)) l ++ [:: RtoC (sqrt (t_bottom c))])%list))
     (PInf :: (List.map (fun p : C * C * R => Fin (snd p)) l ++ [:: PInf])%list) C0 (1 / f)%coqR = Ok D.
    rewrite E1 E2. exact: HD.
  have := Proof_Agree2.coh_films arcsin Hinv Hpri pol u f (sqrt (t_top c)) (sqrt (t_bottom c)) l D Hu Hf Sp0 SpN HD' Hop
    (zip3_signs om ns ms films Hn Sm Hm).
  rewrite E3 -/om. move: HX. rewrite -/om. case: (film _ _ _ _) => [[X Dd] P] [_ [-> ->]] [_ [-> ->]].
  have El : exp (- (2 * sqrt (t_top c) * Im om))%coqR = loss.
    rewrite /loss Eo /=. congr exp. ring.
  rewrite El. split; congr RtoC; ring.
Qed.

Lemma damped_is : (1 + Ci * RtoC (/ (2 * Q_ABS))%coqR)%R = damped.
Proof. rewrite /damped /Q_ABS ?C_addE ?C_mulE ?C_1E. by apply: injective_projections; rewrite /=; ring. Qed.

Lemma zip_eps (ts : seq R) (grid : nat -> C) N : size ts = N ->
  map (fun p : R * eps_val => eps_C p.2) (zip ts (mkseq (fun i => ECplx (grid i)) N)) = mkseq grid N
  /\ map fst (zip ts (mkseq (fun i => ECplx (grid i)) N)) = ts.
Proof.
  move=> E. split; last by apply: unzip1_zip; rewrite size_mkseq E.
  rewrite (map_comp eps_C snd).
  have -> : map snd (zip ts (mkseq (fun i => ECplx (grid i)) N)) = mkseq (fun i => ECplx (grid i)) N.
    by apply: unzip2_zip; rewrite size_mkseq E.
  by rewrite /mkseq -map_comp.
Qed.

Lemma agree_init argsort eig arcsin c N grid f ns ds pol x r t D :
  sorts argsort -> Spec_TMM.inverts_sine arcsin -> Spec_TMM.principal arcsin ->
  (0 < t_top c)%coqR -> (0 < t_bottom c)%coqR -> (0 < f)%coqR ->
  size ns = N -> (forall i, (i < N)%N -> Cmul (nth C0 ns i) (nth C0 ns i) = grid 0%N 0%N i) ->
  size ds = N -> (forall i, (i < N)%N -> layer_thickness (t_thick c) i = Some (nth 0%coqR ds i)) ->
  init_trcwa argsort eig c 1 1 N grid f = Ok x -> RT_Solve true x = Ok (r, t) ->
  Model_TMM.coh_tmm arcsin pol (tmm_indices c damped ns) (tmm_depths ds) C0 (1 / f)%coqR = Ok D ->
  Spec_TMM.no_opaque_layer D ->
  let loss := exp (- (2 * PI * sqrt (t_top c) * f / 10 ^ 5))%coqR in
  r = RtoC (loss * Model_TMM.c_R D)%coqR /\ t = RtoC (loss * Model_TMM.c_T D)%coqR.
Proof.
  move=> Hs Hinv Hpri Ht Hb Hf Sn Hn Sd Hd Hx HRT HD Hop loss.
  have [ts [St [Hts Hfs]]] := init_is_film_stack argsort eig c N grid f x Hx.
  have E : ts = ds.
    apply: (@eq_from_nth _ 0%coqR); first by rewrite St Sd.
    move=> i. rewrite St => Hi. have := Hts i Hi. rewrite Hd //. move=> H. have L : (i < size ts)%N by rewrite St. move: H. elim: (ts) (i) (nth 0%coqR ds i) L {Hi} => [|a l IH] [|k] v //= L; [by case | exact: IH].
  have Hfs' : film_stack argsort c (Cmul (RtoC f) damped) (zip ds (mkseq (fun i => ECplx (grid 0%N 0%N i)) N)) = Ok x.
    rewrite -damped_is -E. exact: Hfs.
  have [Z1 Z2] := zip_eps ds (fun i => grid 0%N 0%N i) N Sd.
  have HD' : Model_TMM.coh_tmm arcsin pol (tmm_indices c damped ns)
      (tmm_depths (map fst (zip ds (mkseq (fun i => ECplx (grid 0%N 0%N i)) N)))) C0 (1 / f)%coqR = Ok D by rewrite Z2.
  have Hn' : map (fun n => Cmul n n) ns = map (fun p : R * eps_val => eps_C p.2) (zip ds (mkseq (fun i => ECplx (grid 0%N 0%N i)) N)).
    rewrite Z1. apply: (@eq_from_nth _ C0); first by rewrite size_map size_mkseq.
    move=> i. rewrite size_map Sn => Hi. by rewrite (nth_map C0) ?Sn // nth_mkseq // Hn.
  have [-> ->] := agree_films argsort arcsin c f damped _ ns pol x r t D Hs Hinv Hpri Ht Hb Hf
     ltac:(rewrite /=; lra) ltac:(rewrite /=; lra) Hn' Hfs' HRT HD' Hop.
  have -> : (4 * PI * sqrt (t_top c) * f * Im damped)%coqR = (2 * PI * sqrt (t_top c) * f / 10 ^ 5)%coqR by rewrite /=; field.
  by [].
Qed.

(** Any passive stack whose layers are not opaque: both codes succeed. *)
Lemma agree_total argsort eig arcsin c N grid f ns ds pol :
  sorts argsort -> usable c -> Spec_TMM.inverts_sine arcsin -> Spec_TMM.principal arcsin ->
  (0 < t_top c)%coqR -> (0 < t_bottom c)%coqR -> (0 < f)%coqR -> pol = "s"%string \/ pol = "p"%string ->
  size ns = N -> size ds = N ->
  (forall i, (i < N)%N -> layer_thickness (t_thick c) i = Some (nth 0%coqR ds i) /\ (0 <= nth 0 ds i)%coqR) ->
  (forall i, (i < N)%N -> let n := nth C0 ns i in Cmul n n = grid 0%N 0%N i /\ (0 <= Im n < 2 * 10 ^ 5 * Re n)%coqR
     /\ ((Im n + Re n / (2 * 10 ^ 5)) * (2 * PI * f) * nth 0 ds i <= 35)%coqR) ->
  let loss := exp (- (2 * PI * sqrt (t_top c) * f / 10 ^ 5))%coqR in
  exists x D, init_trcwa argsort eig c 1 1 N grid f = Ok x
    /\ Model_TMM.coh_tmm arcsin pol (tmm_indices c damped ns) (tmm_depths ds) C0 (1 / f)%coqR = Ok D
    /\ RT_Solve true x = Ok (RtoC (loss * Model_TMM.c_R D)%coqR, RtoC (loss * Model_TMM.c_T D)%coqR).
Proof.
  move=> Hs Hus Hinv Hpri Ht Hb Hf Hpol Sn Sd Hd Hn loss.
  have Sp0 := sqrt_lt_R0 _ Ht. have SpN := sqrt_lt_R0 _ Hb.
  have Hth : forall i, (i < N)%N -> exists th, layer_thickness (t_thick c) i = Some th /\ (0 <= th)%coqR.
    by move=> i Hi; have [A B] := Hd i Hi; exists (nth 0%coqR ds i).
  have Hpa : forall i, (i < N)%N -> grid 0%N 0%N i <> C0 /\ passive_eps (grid 0%N 0%N i).
    move=> i Hi. have := Hn i Hi. case: (nth C0 ns i) => a b /= [<- [[B1 B2] _]]. split.
      move=> E. have X := f_equal fst E. have Y := f_equal snd E. rewrite /= in X Y. nra.
    rewrite /passive_eps /=.
    have P : (0 <= a * a + b * (2 * 10 ^ 5 * a - b))%coqR by nra.
    have Q : (0 <= a * b)%coqR by nra.
    have -> : (a * b + b * a + (a * a - b * b) / (2 * 10 ^ 5) = (a * a + b * (2 * 10 ^ 5 * a - b)) / (2 * 10 ^ 5) + a * b)%coqR by field.
    lra.
  have [x [Rr [Tr [Ex [ERT _]]]]] := uniform_spectrum argsort eig c N grid f Hs Hus Hf Ht Hb
Hth Hpa.
  have E1 : List.map fst (zip ns ds) = ns by apply: unzip1_zip; rewrite Sn Sd.
  have E2 : List.map (fun q : C * R => Fin (snd q)) (zip ns ds) = map Fin ds.
    change (map (fun q : C * R => Fin (snd q)) (zip ns ds) = map Fin ds). rewrite (map_comp Fin snd). congr map.
    by apply: unzip2_zip; rewrite Sn Sd.
  have HQ : forall q, List.In q (zip ns ds) -> (0 < Re (Cmul damped q.1) /\ 0 <= Im (Cmul damped q.1) /\ 0 <= q.2
      /\ Im (Cmul damped q.1) * (2 * PI * f) * q.2 <= 35)%coqR.
    move=> q Hq. have [i [Hi Eq]] := List.In_nth _ _ (C0, 0%coqR) Hq.
    have Hi' : (i < N)%N by have := introT ltP Hi; change (Datatypes.length (zip ns ds)) with (size (zip ns ds)); rewrite size_zip Sn Sd minnn.
    have -> : q = (nth C0 ns i, nth 0%coqR ds i).
      rewrite -Eq. rewrite -(nth_zip C0 0%coqR) ?Sn ?Sd //.
      elim: (zip ns ds) (i) => [|a l IH] [|k] //=.
    have [A [B Cc]] := Hn i Hi'. have [_ Dd] := Hd i Hi'. move: B Cc Dd. clear.
    case: (nth C0 ns i) => a b /=. move: (nth 0%coqR ds i) => d B Cc Dd. lra.
  have [D [HD Hop]] := Proof_Agree2.coh_total arcsin pol damped f (sqrt (t_top c)) (sqrt (t_bottom c)) (zip ns ds) Hinv Hpri Hpol
     ltac:(rewrite /=; lra) ltac:(rewrite /=; lra) Hf Sp0 SpN HQ.
  rewrite E1 E2 in HD.
  have [R1 R2] := agree_init argsort eig arcsin c N grid f ns ds pol x _ _ D Hs Hinv Hpri Ht Hb Hf Sn (fun i Hi => proj1 (Hn i Hi)) Sd
    (fun i Hi => proj1 (Hd i Hi)) Ex ERT HD Hop.
  exists x, D. split=> //. split=> //. by rewrite ERT R1 R2.
Qed.
