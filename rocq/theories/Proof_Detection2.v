(** Proofs for C79: the curves of detectors and their times of arrival. *)
From Coq Require Import Reals ZArith String Ascii List Bool Arith Lra Lia.
From Verif Require Import Base BaseLemmas Model_Units Model_FDTD Model_Register Model_Runs Model_Output Model_Visualize Model_Detection Spec_Detection Proof_FDTD Proof_Visualize2 Proof_Detection.
Import ListNotations.
Open Scope list_scope.
Open Scope R_scope.

Lemma lbo_spec s f : last_but_one s = Some f <-> ends_with_field s f.
Proof.
  unfold ends_with_field. induction s as [|a s IH]; cbn [last_but_one].
  - split; [discriminate|]. intros (p & c & H). destruct p; discriminate.
  - destruct s as [|b s]; [|destruct s as [|d s]].
    + split; [discriminate|]. intros (p & c & H). destruct p as [|? p]; [discriminate|]. destruct p; discriminate.
    + split.
      * intros H. injection H as ->. exists EmptyString, b. reflexivity.
      * intros (p & c & H). destruct p as [|q p]; cbn in H; [congruence|]. destruct p as [|q' p]; [discriminate|]. destruct p; discriminate.
    + rewrite IH. split.
      * intros (p & c & H). exists (String a p), c. cbn. rewrite <- H. reflexivity.
      * intros (p & c & H). destruct p as [|q p]; [discriminate|]. exists p, c. cbn in H. congruence.
Qed.
Lemma lbo_some s : (exists f, last_but_one s = Some f) <-> (2 <= String.length s)%nat.
Proof.
  induction s as [|a s IH]; cbn [last_but_one String.length]; [split; [intros (f & H); discriminate|lia]|].
  destruct s as [|b s]; [|destruct s as [|d s]].
  - split; [intros (f & H); discriminate|cbn; lia].
  - cbn. split; [lia|eauto].
  - rewrite IH. cbn. lia.
Qed.
Lemma field_fun s f f' : ends_with_field s f -> ends_with_field s f' -> f = f'.
Proof. intros H K. apply lbo_spec in H. apply lbo_spec in K. congruence. Qed.
Lemma letter_spec a c : letter_axis a = Ok c <-> a = letter c.
Proof.
  unfold letter_axis. destruct (Ascii.eqb_spec a "x"), (Ascii.eqb_spec a "y"), (Ascii.eqb_spec a "z"); subst; destruct c; cbn; split; try congruence; try discriminate; intros H; try (injection H; discriminate); congruence.
Qed.
Lemma axis_eqb_spec a b : axis_eqb a b = true <-> a = b.
Proof. destruct a, b; cbn; split; congruence. Qed.
Lemma first_cell_is c l : first_cell c l = map (in_first_cell c) l.
Proof. unfold first_cell, in_first_cell. apply map_ext. intros [|v r]; reflexivity. Qed.

Section with_envelope.
Variable env : list R -> list R.

Lemma curves_of_inv specific na cs : curves_of env specific na = Ok cs ->
  forall f c n h, In (f, c, n, h) cs <-> exists l, na = (n, ALine l) /\ ends_with_field n f /\ wanted specific f c /\ h = env (map (in_first_cell c) l).
Proof.
  intros E f c n h. unfold curves_of in E. destruct na as [n0 [l|k]]; cbn [fst snd] in E.
  2:{ injection E as <-. split; [intros []|]. intros (l & H & _). discriminate. }
  destruct (last_but_one n0) as [f0|] eqn:F; [|discriminate]. cbn [bind] in E. apply lbo_spec in F. destruct specific as [s|].
  - cbn [wanted]. unfold char_at in E. destruct s as [|s0 s]; [discriminate|]. cbn [String.get bind] in E.
    destruct (Ascii.eqb_spec f0 s0) as [<- |Ne]; cbn [negb] in E.
    + destruct s as [|s1 s]; [discriminate|]. cbn [String.get bind] in E. destruct (letter_axis s1) as [c0|] eqn:Lx; [|discriminate]. cbn [bind] in E. apply letter_spec in Lx. assert (cs = [(f0, c0, n0, env (first_cell c0 l))]) as -> by congruence. cbn [In].
      split.
      * intros [H|[]]. assert (f0 = f) as <- by congruence. assert (c0 = c) as <- by congruence. assert (n0 = n) as <- by congruence. assert (h = env (first_cell c0 l)) by congruence. exists l. rewrite <- first_cell_is. repeat split; eauto. exists s. congruence.
      * intros (l' & H & Ef & (r & W) & ->). assert (n = n0) as -> by congruence. assert (l' = l) as -> by congruence. left.
        pose proof (field_fun _ _ _ F Ef) as <-. assert (s1 = letter c) as El by congruence.
        assert (c0 = c) as -> by (destruct c0, c; cbn in *; congruence). rewrite first_cell_is. reflexivity.
    + injection E as <-. split; [intros []|]. intros (l' & H & Ef & (r & W) & _). assert (n = n0) as -> by congruence. apply Ne. pose proof (field_fun _ _ _ F Ef). congruence.
  - assert (cs = map (fun c => (f0, c, n0, env (first_cell c l))) [AX; AY; AZ]) as -> by congruence. rewrite in_map_iff. split.
    + intros (c' & H & _). assert (f0 = f) as <- by congruence. assert (c' = c) as -> by congruence. assert (n0 = n) as <- by congruence. exists l. rewrite <- first_cell_is. repeat split; [assumption|congruence].
    + intros (l' & H & Ef & _ & ->). assert (n = n0) as -> by congruence. assert (l' = l) as -> by congruence. exists c. rewrite first_cell_is. pose proof (field_fun _ _ _ F Ef) as <-. split; [reflexivity|]. destruct c; cbn; auto.
Qed.
Lemma map_res_all {A B} (f : A -> res B) l r : map_res f l = Ok r -> Forall2 (fun a b => f a = Ok b) l r.
Proof.
  revert r. induction l as [|a l IH]; intros r H; cbn [map_res] in H; [injection H as <-; constructor|].
  apply bind_inv in H as (b & Hb & H). apply bind_inv in H as (r' & Hr & H). injection H as <-. constructor; auto.
Qed.
Lemma plot_inv d specific cs ar : plot_detection env (Some d) specific = Ok (cs, ar) ->
  (exists css, map_res (curves_of env specific) d = Ok css /\ cs = List.concat css) /\ ar = fold_left record_arrival cs [].
Proof.
  intros E. cbn [plot_detection] in E. apply bind_inv in E as (css & Hc & E). apply bind_inv in E as (_ & _ & E). apply bind_inv in E as (_ & _ & E). injection E as <- <-. eauto.
Qed.
Lemma plot_curves d specific cs ar : plot_detection env (Some d) specific = Ok (cs, ar) ->
  forall f c n h, In (f, c, n, h) cs <-> exists l, In (n, ALine l) d /\ ends_with_field n f /\ wanted specific f c /\ h = env (map (in_first_cell c) l).
Proof.
  intros E f c n h. apply plot_inv in E as ((css & Hc & ->) & _). apply map_res_all in Hc. rewrite in_concat. split.
  - intros (k & Ik & I). revert Ik. induction Hc as [|a b d' css' Ha _ IH]; intros []; [subst|].
    + apply (curves_of_inv _ _ _ Ha) in I as (l & -> & H). exists l. split; [left; reflexivity|exact H].
    + destruct (IH H) as (l & Il & R0). exists l. split; [right; exact Il|exact R0].
  - intros (l & I & H). revert I. induction Hc as [|a b d' css' Ha _ IH]; intros []; [subst|].
    + exists b. split; [left; reflexivity|]. apply (curves_of_inv _ _ _ Ha). exists l. auto.
    + destruct (IH H0) as (k & Ik & R0). exists k. split; [right; exact Ik|exact R0].
Qed.

(** ** Arrivals *)
Lemma find_first_spec m l : forall k, In m l -> exists t, find_first m l k = (k + t)%nat /\ (t < length l)%nat /\ nth t l 0 = m /\ forall u, (u < t)%nat -> nth u l 0 <> m.
Proof.
  induction l as [|x l IH]; intros k []; cbn [find_first].
  - subst x. assert (Reqb m m = true) as -> by (apply Reqb_true; reflexivity). exists 0%nat. cbn. repeat split; lia.
  - destruct (Reqb x m) eqn:Q; [apply Reqb_true in Q; exists 0%nat; cbn; repeat split; [lia|lia|exact Q|lia]|]. apply Reqb_false in Q.
    destruct (IH (S k) H) as (t & E & L & N & U). exists (S t). cbn. repeat split; [lia|lia|exact N|]. intros [|u] Hu; [exact Q|apply U; lia].
Qed.
Lemma arrival_is h : h <> [] -> first_maximum h (arrival_time h).
Proof.
  intros Ne. unfold arrival_time. destruct h as [|x h]; [congruence|]. destruct (greatest_spec (x :: h) x (or_introl eq_refl)) as [G1 G2].
  destruct (find_first_spec _ _ 0%nat G1) as (t & -> & L & N & U). cbn [Nat.add]. unfold first_maximum. rewrite N. split; [exact L|]. split.
  - intros u Hu. apply G2, nth_In, Hu.
  - intros u Hu. destruct (Rle_lt_or_eq_dec _ _ (G2 (nth u (x :: h) 0) ltac:(apply nth_In; lia))) as [K|K]; [exact K|destruct (U u Hu K)].
Qed.
(** Keys occur once. *)
Definition once (d : arrivals) : Prop := NoDup (map fst d) /\ Forall (fun e => NoDup (map fst (snd e)) /\ snd e <> []) d.
Definition found (d : arrivals) (f : ascii) (c : axis) : option (list (string * nat)) :=
  match find (fun e => Ascii.eqb f (fst e)) d with
  | Some (_, e) => option_map snd (find (fun e => axis_eqb c (fst e)) e)
  | None => None
  end.
Lemma find_dim c c' x e : find (fun e => axis_eqb c' (fst e)) (add_dimension c x e) =
  if axis_eqb c' c then match find (fun e => axis_eqb c' (fst e)) e with Some (k, l) => Some (k, l ++ [x]) | None => Some (c, [x]) end else find (fun e => axis_eqb c' (fst e)) e.
Proof.
  induction e as [|[k l] e IH]; cbn [add_dimension find fst].
  - destruct (axis_eqb c' c); reflexivity.
  - destruct (axis_eqb c k) eqn:Q.
    + apply axis_eqb_spec in Q. subst k. cbn [find fst]. destruct (axis_eqb c' c); reflexivity.
    + cbn [find fst]. rewrite IH. destruct (axis_eqb c' c) eqn:Q2; [|reflexivity]. apply axis_eqb_spec in Q2. subst c'. rewrite Q. reflexivity.
Qed.
Lemma found_add f c x d f' c' : found (add_arrival f c x d) f' c' =
  if (Ascii.eqb f' f && axis_eqb c' c)%bool then Some (match found d f' c' with Some l => l | None => [] end ++ [x]) else found d f' c'.
Proof.
  unfold found. induction d as [|[k e] d IH]; cbn [add_arrival find fst].
  - destruct (Ascii.eqb f' f); cbn [andb]; [|reflexivity]. rewrite find_dim. cbn [find]. destruct (axis_eqb c' c); reflexivity.
  - destruct (Ascii.eqb f k) eqn:Q.
    + apply Ascii.eqb_eq in Q. subst k. cbn [find fst]. destruct (Ascii.eqb f' f); cbn [andb]; [|reflexivity]. rewrite find_dim.
      destruct (axis_eqb c' c); [|reflexivity]. destruct (find _ e) as [[k l]|]; reflexivity.
    + cbn [find fst]. destruct (Ascii.eqb f' k) eqn:Q2; [|exact IH]. apply Ascii.eqb_eq in Q2. subst k.
      rewrite Ascii.eqb_sym, Q. reflexivity.
Qed.
Lemma dim_keys c x e k : In k (map fst (add_dimension c x e)) <-> k = c \/ In k (map fst e).
Proof.
  induction e as [|[c' l] e IH]; cbn [add_dimension map fst In]; [intuition congruence|]. destruct (axis_eqb c c') eqn:Q; cbn [map fst In].
  - apply axis_eqb_spec in Q. subst. intuition congruence.
  - rewrite IH. intuition congruence.
Qed.
Lemma dim_once c x e : NoDup (map fst e) -> NoDup (map fst (add_dimension c x e)).
Proof.
  induction e as [|[c' l] e IH]; cbn [add_dimension map fst]; intros H; [constructor; [intros []|constructor]|]. inversion H as [|? ? N D]; subst.
  destruct (axis_eqb c c') eqn:Q; cbn [map fst]; constructor; auto. rewrite dim_keys. intros [-> |I]; [destruct c; discriminate|auto].
Qed.
Lemma arr_keys f c x d k : In k (map fst (add_arrival f c x d)) <-> k = f \/ In k (map fst d).
Proof.
  induction d as [|[f' l] d IH]; cbn [add_arrival map fst In]; [intuition congruence|]. destruct (Ascii.eqb f f') eqn:Q; cbn [map fst In].
  - apply Ascii.eqb_eq in Q. subst. intuition congruence.
  - rewrite IH. intuition congruence.
Qed.
Lemma dim_nonempty c x e : add_dimension c x e <> [].
Proof. destruct e as [|[k l] e]; cbn; [congruence|]. destruct (axis_eqb c k); congruence. Qed.
Lemma arr_once f c x d : once d -> once (add_arrival f c x d).
Proof.
  unfold once. induction d as [|[f' e] d IH]; cbn [add_arrival]; intros [N F].
  - split; cbn; [constructor; [intros []|constructor]|]. constructor; [|constructor]. cbn. split; [constructor; [intros []|constructor]|congruence].
  - cbn [map fst] in N. inversion N as [|? ? N1 N2]; subst. inversion F as [|? ? F1 F2]; subst. destruct (Ascii.eqb f f') eqn:Q.
    + split; [exact N|]. constructor; [|exact F2]. cbn [snd] in *. split; [apply dim_once, F1|apply dim_nonempty].
    + destruct (IH (conj N2 F2)) as [I1 I2]. split; [|constructor; assumption]. cbn [map fst]. constructor; [|exact I1]. rewrite arr_keys. intros [-> |I]; [rewrite Ascii.eqb_refl in Q; discriminate|auto].
Qed.
Lemma found_fold cs f c : forall d, once d -> once (fold_left record_arrival cs d)
  /\ found (fold_left record_arrival cs d) f c =
     match curves_for f c cs with
     | [] => found d f c
     | k => Some (match found d f c with Some l => l | None => [] end ++ map (fun nh => (fst nh, arrival_time (snd nh))) k)
     end.
Proof.
  induction cs as [|[[[f' c'] n] h] cs IH]; intros d O; cbn [fold_left curves_for]; [split; [exact O|reflexivity]|]. cbn [record_arrival].
  destruct (IH (add_arrival f' c' (n, arrival_time h) d) (arr_once _ _ _ _ O)) as [O' E]. split; [exact O'|]. rewrite E, found_add.
  destruct (Ascii.eqb f f' && axis_eqb c c')%bool; [|reflexivity]. destruct (curves_for f c cs) as [|k0 ks]; [reflexivity|]. cbn [map fst snd]. rewrite <- List.app_assoc. reflexivity.
Qed.
Lemma in_find {A B} (eqb : A -> A -> bool) (Heq : forall x y, eqb x y = true <-> x = y) (d : list (A * B)) k v : NoDup (map fst d) ->
  (In (k, v) d <-> find (fun e => eqb k (fst e)) d = Some (k, v)).
Proof.
  induction d as [|[k' v'] d IH]; cbn [map fst find In]; intros N; [split; [intros []|discriminate]|]. inversion N as [|? ? N1 N2]; subst.
  destruct (eqb k k') eqn:Q.
  - apply Heq in Q. subst k'. split; [intros [H|H]; [congruence|]|intros H; left; congruence]. destruct N1. apply in_map_iff. exists (k, v). auto.
  - rewrite <- (IH N2). split; [intros [H|H]; [|exact H]|auto]. assert (k' = k) as -> by congruence. assert (eqb k k = true) by (apply Heq; reflexivity). congruence.
Qed.
Lemma arrivals_found d f c l : once d -> (arrivals_of d f c l <-> found d f c = Some l).
Proof.
  intros [N F]. unfold arrivals_of, found. rewrite Forall_forall in F. split.
  - intros (e & I & Il). destruct (F _ I) as [Ne _]. cbn [snd] in Ne. apply (in_find _ Ascii.eqb_eq _ _ _ N) in I. rewrite I. apply (in_find _ axis_eqb_spec _ _ _ Ne) in Il. rewrite Il. reflexivity.
  - destruct (find _ d) as [[f' e]|] eqn:Q; [|discriminate]. pose proof (find_some _ _ Q) as [I Ef]. cbn [fst] in Ef. apply Ascii.eqb_eq in Ef. subst f'.
    destruct (find (fun e => axis_eqb c (fst e)) e) as [[c' l']|] eqn:Q2; [|discriminate]. intros H. assert (l' = l) as -> by (cbn in H; congruence).
    pose proof (find_some _ _ Q2) as [I2 Ec]. cbn [fst] in Ec. apply axis_eqb_spec in Ec. subst c'. eauto.
Qed.
Lemma map_arrivals (k : list (string * list R)) : (forall n h, In (n, h) k -> h <> []) ->
  Forall2 (fun (curve : string * list R) (arrival : string * nat) => fst arrival = fst curve /\ first_maximum (snd curve) (snd arrival)) k (map (fun nh => (fst nh, arrival_time (snd nh))) k).
Proof.
  induction k as [|[n h] k IH]; intros H; cbn [map fst snd]; constructor.
  - cbn. split; [reflexivity|]. apply arrival_is. apply (H n). left. reflexivity.
  - apply IH. intros n' h' I. apply (H n'). right. exact I.
Qed.
Lemma in_curves_for f c cs n h : In (n, h) (curves_for f c cs) <-> In (f, c, n, h) cs.
Proof.
  induction cs as [|[[[f' c'] n'] h'] cs IH]; cbn [curves_for In]; [reflexivity|]. destruct (Ascii.eqb f f' && axis_eqb c c')%bool eqn:Q.
  - apply andb_true_iff in Q as [Q1 Q2]. apply Ascii.eqb_eq in Q1. apply axis_eqb_spec in Q2. subst. cbn [In]. rewrite IH. split; (intros [H|H]; [left; congruence|right; exact H]).
  - rewrite IH. split; [auto|]. intros [H|H]; [|exact H]. assert (f' = f) by congruence. assert (c' = c) by congruence. subst. rewrite Ascii.eqb_refl in Q. destruct c; discriminate.
Qed.
(** Each curve is given with the first moment at which it is at its maximum. *)
Lemma plot_arrivals d specific cs ar : (forall l, length (env l) = length l) -> (forall n l, In (n, ALine l) d -> l <> []) ->
  plot_detection env (Some d) specific = Ok (cs, ar) ->
  forall f c, match curves_for f c cs with
    | [] => forall l, ~ arrivals_of ar f c l
    | k => exists times, (forall l, arrivals_of ar f c l <-> l = times)
             /\ Forall2 (fun (curve : string * list R) (arrival : string * nat) => fst arrival = fst curve /\ first_maximum (snd curve) (snd arrival)) k times
    end.
Proof.
  intros Len Ne E f c. pose proof (plot_curves _ _ _ _ E) as Pc. apply plot_inv in E as (_ & ->).
  assert (O0 : once []) by (split; constructor). destruct (found_fold cs f c [] O0) as [O Ef]. cbn [found find] in Ef.
  assert (Nh : forall n h, In (n, h) (curves_for f c cs) -> h <> []).
  { intros n h I. apply in_curves_for in I. apply Pc in I as (l & Il & _ & _ & ->). specialize (Ne _ _ Il). intros Z. apply (f_equal (@length R)) in Z. rewrite Len, map_length in Z. destruct l; [congruence|discriminate]. }
  destruct (curves_for f c cs) as [|k ks].
  - intros l A. apply (arrivals_found _ _ _ _ O) in A. rewrite Ef in A. discriminate.
  - eexists. split; [|apply map_arrivals, Nh]. intros l. rewrite (arrivals_found _ _ _ _ O), Ef. split; [intros H; injection H as <-; reflexivity|intros ->; reflexivity].
Qed.

(** ** When a picture is drawn *)
Lemma curves_ok_none d : (exists css, map_res (curves_of env None) d = Ok css) <-> forall n l, In (n, ALine l) d -> (2 <= String.length n)%nat.
Proof.
  split.
  - intros (css & H) n l I. apply map_res_all in H. induction H as [|a b d' css' Ha _ IH]; [destruct I|]. destruct I as [-> |I]; [|exact (IH I)].
    unfold curves_of in Ha. cbn [fst snd] in Ha. apply lbo_some. destruct (last_but_one n); [eauto|discriminate].
  - induction d as [|[n a] d IH]; intros H; [exists []; reflexivity|]. destruct IH as (css & Hc); [intros n' l I; apply (H n' l); right; exact I|].
    cbn [map_res]. assert (Q : exists b, curves_of env None (n, a) = Ok b).
    { unfold curves_of. cbn [fst snd]. destruct a as [l|k]; [|eauto]. destruct (proj2 (lbo_some n) (H n l (or_introl eq_refl))) as (f & ->). cbn [bind]. eauto. }
    destruct Q as (b & ->). cbn [bind]. rewrite Hc. cbn [bind]. eauto.
Qed.
Lemma curves_ok_some d f c r : (exists css, map_res (curves_of env (Some (String f (String (letter c) r)))) d = Ok css) <-> forall n l, In (n, ALine l) d -> (2 <= String.length n)%nat.
Proof.
  split.
  - intros (css & H) n l I. apply map_res_all in H. induction H as [|a b d' css' Ha _ IH]; [destruct I|]. destruct I as [-> |I]; [|exact (IH I)].
    unfold curves_of in Ha. cbn [fst snd] in Ha. apply lbo_some. destruct (last_but_one n); [eauto|discriminate].
  - induction d as [|[n a] d IH]; intros H; [exists []; reflexivity|]. destruct IH as (css & Hc); [intros n' l I; apply (H n' l); right; exact I|].
    cbn [map_res]. assert (Q : exists b, curves_of env (Some (String f (String (letter c) r))) (n, a) = Ok b).
    { unfold curves_of. cbn [fst snd]. destruct a as [l|k]; [|eauto]. destruct (proj2 (lbo_some n) (H n l (or_introl eq_refl))) as (f0 & ->). cbn [bind char_at String.get]. destruct (negb _); [eauto|].
      rewrite (proj2 (letter_spec _ c) eq_refl). cbn [bind]. eauto. }
    destruct Q as (b & ->). cbn [bind]. rewrite Hc. cbn [bind]. eauto.
Qed.
Lemma plot_drawn_all d : (exists out, plot_detection env (Some d) None = Ok out) <->
  (forall n l, In (n, ALine l) d -> (2 <= String.length n)%nat) /\ exists d' n a k, d = d' ++ [(n, a)] /\ inner a = Some k /\ (k <= 4)%nat.
Proof.
  rewrite <- curves_ok_none. cbn [plot_detection]. unfold label_figure, label_dimensions, ensure. cbn [bind]. split.
  - intros (out & E). apply bind_inv in E as (css & Hc & E). split; [eauto|]. apply bind_inv in E as (u & L & _).
    destruct (rev d) as [|[n a] d'] eqn:Rv; [discriminate|]. destruct (inner a) as [k|] eqn:Ia; [|discriminate]. destruct (Nat.leb_spec k 4); [|discriminate].
    exists (rev d'), n, a, k. split; [|auto]. rewrite <- (rev_involutive d), Rv. reflexivity.
  - intros ((css & ->) & d' & n & a & k & -> & Ia & K). cbn [bind]. rewrite rev_app_distr. cbn [rev app]. rewrite Ia. destruct (Nat.leb_spec k 4); [|lia]. cbn [bind]. eauto.
Qed.
Lemma plot_drawn_one d f c : f = "E"%char \/ f = "H"%char -> (exists out, plot_detection env (Some d) (Some (String f (String (letter c) EmptyString))) = Ok out) <->
  (forall n l, In (n, ALine l) d -> (2 <= String.length n)%nat) /\ exists d' n a k, d = d' ++ [(n, a)] /\ inner a = Some k.
Proof.
  intros Hf. rewrite <- (curves_ok_some d f c EmptyString). cbn [plot_detection]. unfold label_figure, label_dimensions. cbn [char_at String.get bind].
  rewrite (proj2 (letter_spec _ c) eq_refl). cbn [bind].
  assert (Z : forall k : nat, (if (k =? 0)%nat then Ok tt else Ok tt) = Ok tt :> res unit) by (intros [|k]; reflexivity).
  split.
  - intros (out & E). apply bind_inv in E as (css & Hc & E). split; [eauto|]. apply bind_inv in E as (u & L1 & E). apply bind_inv in E as (u' & L2 & _).
    assert (L : exists u, match rev d with [] => Err UnboundLocalError | (_, a) :: _ => match inner a with Some n => if (n =? 0)%nat then Ok tt else Ok tt | None => Err IndexError end end = Ok u).
    { destruct Hf as [-> | ->]; [exists u; exact L1|exists u'; exact L2]. }
    destruct L as (v & L). destruct (rev d) as [|[n a] d'] eqn:Rv; [discriminate|]. destruct (inner a) as [k|] eqn:Ia; [|discriminate].
    exists (rev d'), n, a, k. split; [|auto]. rewrite <- (rev_involutive d), Rv. reflexivity.
  - intros ((css & ->) & d' & n & a & k & -> & Ia). cbn [bind]. rewrite rev_app_distr. cbn [rev app]. rewrite Ia. rewrite Z. destruct Hf as [-> | ->]; cbn; eauto.
Qed.
Lemma plot_nothing specific : plot_detection env None specific = Err PlainException.
Proof. reflexivity. Qed.
Lemma plot_empty specific : (forall s, specific = Some s -> exists r, s = String "E" r \/ s = String "H" r) -> plot_detection env (Some []) specific = Err UnboundLocalError.
Proof.
  intros H. cbn [plot_detection map_res bind]. destruct specific as [s|]; [|reflexivity]. destruct (H s eq_refl) as (r & [-> | ->]); reflexivity.
Qed.
(** A block as the last array. *)
Lemma plot_block_last d n k : (forall n l, In (n, ALine l) d -> (2 <= String.length n)%nat) -> (4 < k)%nat ->
  plot_detection env (Some (d ++ [(n, AOther (Some k))])) None = Err ValueError.
Proof.
  intros H K. cbn [plot_detection]. destruct (proj2 (curves_ok_none (d ++ [(n, AOther (Some k))]))) as (css & ->).
  { intros n' l I. apply in_app_or in I as [I|[I|[]]]; [apply (H n' l I)|discriminate]. }
  cbn [bind]. unfold label_figure, label_dimensions. rewrite rev_app_distr. cbn [rev app inner bind]. unfold ensure. destruct (Nat.leb_spec k 4); [lia|reflexivity].
Qed.
Lemma plot_unread_last d n specific : (forall n l, In (n, ALine l) d -> (2 <= String.length n)%nat) ->
  specific = None \/ (exists f c, (f = "E" \/ f = "H")%char /\ specific = Some (String f (String (letter c) EmptyString))) ->
  plot_detection env (Some (d ++ [(n, AOther None)])) specific = Err IndexError.
Proof.
  intros H Sp. cbn [plot_detection].
  assert (H' : forall n' l, In (n', ALine l) (d ++ [(n, AOther None)]) -> (2 <= String.length n')%nat).
  { intros n' l I. apply in_app_or in I as [I|[I|[]]]; [apply (H n' l I)|discriminate]. }
  destruct Sp as [-> |(f & c & Hf & ->)].
  - destruct (proj2 (curves_ok_none _) H') as (css & ->). cbn [bind]. unfold label_figure. rewrite rev_app_distr. reflexivity.
  - destruct (proj2 (curves_ok_some _ f c EmptyString) H') as (css & ->). cbn [bind]. unfold label_figure. rewrite rev_app_distr. cbn [char_at String.get bind rev app inner]. destruct Hf as [-> | ->]; reflexivity.
Qed.
End with_envelope.

Lemma app_length_s a b : String.length (a ++ b)%string = (String.length a + String.length b)%nat.
Proof. induction a; cbn; [reflexivity|rewrite IHa; reflexivity]. Qed.
Lemma app_assoc_s a b c : ((a ++ b) ++ c = a ++ (b ++ c))%string.
Proof. induction a; cbn; [reflexivity|rewrite IHa; reflexivity]. Qed.
(** The names under which save_data stores readings. *)
Lemma saved_names n f : ends_with_field (n ++ " (" ++ String f ")")%string f /\ (2 <= String.length (n ++ " (" ++ String f ")"))%nat.
Proof.
  split; [|rewrite app_length_s; cbn; lia]. exists (n ++ " (")%string, ")"%char. rewrite app_assoc_s. reflexivity.
Qed.

Lemma dict_set_keys k v d x : In x (map fst (dict_set k v d)) -> x = k \/ In x (map fst d).
Proof.
  induction d as [|[k' v'] d IH]; cbn [dict_set map fst In]; [intuition congruence|]. destruct (String.eqb k k'); cbn [map fst In]; intuition.
Qed.
Lemma collect_keys l : forall dic dic', collect l dic = Ok dic' -> forall x, In x (map fst dic') -> In x (map fst dic)
  \/ exists n k d, In ((Some n, k), d) l /\ (x = n ++ " (E)" \/ x = n ++ " (H)")%string.
Proof.
  induction l as [|[[o k] d] l IH]; intros dic dic' E x I; cbn [collect] in E; [left; congruence|].
  assert (G : exists n, o = Some n /\ collect l (dict_set (n ++ " (H)") (records_H d) (dict_set (n ++ " (E)") (records_E d) dic)) = Ok dic').
  { destruct k, o as [n|]; try discriminate; exists n; split; auto. }
  destruct G as (n & -> & G). destruct (IH _ _ G x I) as [H|(n' & k' & d' & H & Q)].
  - apply dict_set_keys in H as [H|H]; [right; exists n, k, d; split; [left; reflexivity|auto]|]. apply dict_set_keys in H as [H|H]; [right; exists n, k, d; split; [left; reflexivity|auto]|]. left. exact H.
  - right. exists n', k', d'. split; [right; exact H|exact Q].
Qed.
Lemma saved_file s s' folder : save_data s = (s', None) -> ss_folder s = Some folder -> exists dic, ss_files s' ("detector_readings.npz" :: folder)%string = Some (File (Some (Readings dic)))
  /\ collect (combine (ss_dets s) (g_detectors (ss_grid s))) [] = Ok dic.
Proof.
  intros E F. unfold save_data in E. rewrite F in E. destruct (collect _ _) as [dic|] eqn:C; [|discriminate]. exists dic. split; [|reflexivity].
  assert (P : s' = mkSession (ss_grid s) (ss_dets s) (ss_folder s) (ss_sim s) (ss_cwd s) (put ("detector_readings.npz"%string :: folder) (File (Some (Readings dic))) (ss_files s))).
  { destruct (ss_files s folder) as [[]|]; try discriminate. destruct (ss_files s ("detector_readings.npz"%string :: folder)) as [[]|]; try discriminate; congruence. }
  subst s'. cbn [ss_files]. unfold put. assert (place_eqb ("detector_readings.npz"%string :: folder) ("detector_readings.npz"%string :: folder) = true) as ->; [|reflexivity].
  unfold place_eqb. destruct (list_eq_dec _ _ _); congruence.
Qed.
Lemma in_loaded r n l : In (n, ALine l) (loaded r) <-> In (n, l) r /\ recorded l.
Proof.
  unfold loaded. rewrite in_map_iff. split.
  - intros ([n' l'] & E & I). cbn [fst snd] in E. destruct l' as [|[|v c] l']; try discriminate. assert (n' = n) as -> by congruence. assert (l = (v :: c) :: l') as -> by congruence. split; [exact I|exact Logic.I].
  - intros [I Rc]. exists (n, l). split; [|exact I]. destruct l as [|[|v c] l]; try destruct Rc. reflexivity.
Qed.
Lemma field_name n f f' : ends_with_field (n ++ " (" ++ String f ")")%string f' -> f' = f.
Proof. intros H. apply (field_fun _ _ _ H). apply saved_names. Qed.
Lemma saved_plotted env s s' folder : save_data s = (s', None) -> ss_folder s = Some folder -> (forall n k, In (n, k) (ss_dets s) -> k = DLine) ->
  exists dic, ss_files s' ("detector_readings.npz" :: folder)%string = Some (File (Some (Readings dic)))
  /\ ((exists out, plot_detection env (Some (loaded dic)) None = Ok out) <-> exists d n l, dic = d ++ [(n, l)] /\ recorded l)
  /\ forall cs ar, plot_detection env (Some (loaded dic)) None = Ok (cs, ar) -> forall f c n h, In (f, c, n, h) cs <->
     exists m l, In (Some m, DLine) (ss_dets s) /\ (f = "E" \/ f = "H")%char /\ n = (m ++ " (" ++ String f ")")%string /\ In (n, l) dic /\ recorded l /\ h = env (map (in_first_cell c) l).
Proof.
  intros E F K. destruct (saved_file _ _ _ E F) as (dic & Ff & C). exists dic. split; [exact Ff|].
  assert (Keys : forall n l, In (n, l) dic -> exists m f, In (Some m, DLine) (ss_dets s) /\ (f = "E" \/ f = "H")%char /\ n = (m ++ " (" ++ String f ")")%string).
  { intros n l I. destruct (collect_keys _ _ _ C n) as [[]|(m & k & d & Id & Q)]; [apply in_map_iff; exists (n, l); auto|].
    apply in_combine_l in Id. pose proof (K _ _ Id) as ->. exists m. destruct Q as [-> | ->]; eexists; repeat split; eauto. }
  split.
  - rewrite plot_drawn_all. split.
    + intros (_ & d' & n & a & k & El & Ia & _). destruct (rev dic) as [|[n0 l0] rd] eqn:Rv.
      * apply (f_equal (@rev _)) in Rv. rewrite rev_involutive in Rv. subst dic. destruct d'; discriminate.
      * assert (Ed : dic = rev rd ++ [(n0, l0)]) by (rewrite <- (rev_involutive dic), Rv; reflexivity). exists (rev rd), n0, l0. split; [exact Ed|].
        rewrite Ed in El. unfold loaded in El. rewrite map_app in El. cbn [map fst snd] in El. apply app_inj_tail in El as [_ El].
        destruct l0 as [|[|v c] l0]; cbn; try exact Logic.I; assert (a = AOther None) as -> by congruence; discriminate.
    + intros (d & n & l & -> & Rc). split.
      * intros n' l' I. apply in_loaded in I as [I _]. destruct (Keys _ _ I) as (m & f & _ & _ & ->). apply saved_names.
      * exists (loaded d), n, (ALine l), 3%nat. split; [|split; [reflexivity|lia]]. unfold loaded. rewrite map_app. cbn [map fst snd]. destruct l as [|[|v c] l]; try destruct Rc. reflexivity.
  - intros cs ar P f c n h. rewrite (plot_curves env _ _ _ _ P). cbn [wanted]. split.
    + intros (l & I & Ef & _ & ->). apply in_loaded in I as [I Rc]. destruct (Keys _ _ I) as (m & f0 & Im & Hf & ->). apply field_name in Ef. subst f0. exists m, l. auto 10.
    + intros (m & l & _ & _ & -> & I & Rc & ->). exists l. rewrite in_loaded. repeat split; auto. apply saved_names.
Qed.
