(** * Thm_Locks: proofs of the theorems restated in Props_Locks.v *)
From Coq Require Import String List ZArith NArith Bool Lia.
From Verif Require Import PyBase Writer Locks.
Import ListNotations.
Open Scope nat_scope.

Lemma put_len {A} (x : A) : forall l n, List.length (put_nth n x l) = List.length l.
Proof. induction l as [|a l IH]; intros [|n]; cbn; auto. Qed.
Lemma put_get {A} (x : A) : forall l n i, nth_error (put_nth n x l) i = if Nat.eqb i n then option_map (fun _ => x) (nth_error l i) else nth_error l i.
Proof. induction l as [|a l IH]; intros [|n] [|i]; cbn; try reflexivity; [now destruct (Nat.eqb i n)|apply IH]. Qed.

Section Inv.
  Context (jobs : list (list job)) (files : nat -> bytes).
  Hypothesis Hshare : forall a b ja jb, In a jobs -> In b jobs -> In ja a -> In jb b -> jb_file ja = jb_file jb -> jb_lock ja = jb_lock jb.

  Record inv (log : list (nat * job)) (p : pool) : Prop := mk_inv {
    i_len : List.length (pl_threads p) = List.length jobs;
    i_log : forall x, In x log -> fst x < List.length jobs;
    i_own : forall t js th, nth_error jobs t = Some js -> nth_error (pl_threads p) t = Some th -> js = done_by t log ++ unfinished th;
    i_lock : forall t j left todo, nth_error (pl_threads p) t = Some (Inside j left todo) -> pl_locked p (jb_lock j) = true;
    i_uniq : forall t t' j left todo j' left' todo', nth_error (pl_threads p) t = Some (Inside j left todo) ->
      nth_error (pl_threads p) t' = Some (Inside j' left' todo') -> jb_lock j = jb_lock j' -> t = t';
    i_in : forall t j left todo, nth_error (pl_threads p) t = Some (Inside j left todo) ->
      exists first, jb_writes j = first ++ left /\ pl_files p (jb_file j) = files (jb_file j) ++ written_to (jb_file j) log ++ concat first;
    i_out : forall f, (forall t j left todo, nth_error (pl_threads p) t = Some (Inside j left todo) -> jb_file j <> f) ->
      pl_files p f = files f ++ written_to f log
  }.
  Lemma in_jobs log p t th j : inv log p -> nth_error (pl_threads p) t = Some th -> In j (unfinished th) -> exists a, In a jobs /\ In j a.
  Proof.
    intros I Ht Hj. destruct (nth_error jobs t) as [js|] eqn:E.
    - exists js. split; [eapply nth_error_In; exact E|]. rewrite (i_own _ _ I _ _ _ E Ht). apply in_or_app. now right.
    - exfalso. apply nth_error_None in E. rewrite <- (i_len _ _ I) in E. apply nth_error_None in E. congruence.
  Qed.
  (** two threads inside jobs on the same file are the same *)
  Lemma same_file log p t t' j left todo j' left' todo' : inv log p ->
    nth_error (pl_threads p) t = Some (Inside j left todo) -> nth_error (pl_threads p) t' = Some (Inside j' left' todo') -> jb_file j = jb_file j' -> t = t'.
  Proof.
    intros I H H' Hf. apply (i_uniq _ _ I _ _ _ _ _ _ _ _ H H').
    destruct (in_jobs log p t _ j I H) as (a & Ha & Hja); [now left|]. destruct (in_jobs log p t' _ j' I H') as (b & Hb & Hjb); [now left|].
    now apply (Hshare a b).
  Qed.
  Lemma done_snoc t log t' j : done_by t (log ++ [(t', j)]) = done_by t log ++ if Nat.eqb t' t then [j] else [].
  Proof. unfold done_by. rewrite filter_app, map_app. cbn [filter fst]. destruct (Nat.eqb t' t); reflexivity. Qed.
  Lemma written_snoc f log t j : written_to f (log ++ [(t, j)]) = written_to f log ++ if Nat.eqb (jb_file j) f then concat (jb_writes j) else [].
  Proof. unfold written_to. rewrite filter_app, map_app, concat_app. cbn [filter snd]. destruct (Nat.eqb (jb_file j) f); cbn; now rewrite ?app_nil_r. Qed.

  Lemma inv_turn log p t : inv log p -> exists log', inv log' (turn t p).
  Proof.
    intros I. unfold turn. destruct (nth_error (pl_threads p) t) as [[[|j todo]|j [|b left] todo]|] eqn:Et; try (now exists log).
    - destruct (pl_locked p (jb_lock j)) eqn:El; [now exists log|]. exists log. constructor; cbn [pl_threads pl_locked pl_files].
      + rewrite put_len. apply I.
      + apply I.
      + intros t' js th Hj. rewrite put_get. destruct (Nat.eqb t' t) eqn:E.
        * apply Nat.eqb_eq in E. subst t'. rewrite Et. cbn. intros [= <-]. exact (i_own _ _ I _ _ _ Hj Et).
        * intros H. exact (i_own _ _ I _ _ _ Hj H).
      + intros t' j' left' todo'. rewrite put_get. unfold upd. destruct (Nat.eqb t' t) eqn:E.
        * apply Nat.eqb_eq in E. subst t'. rewrite Et. cbn. intros [= <- <- <-]. now rewrite Nat.eqb_refl.
        * intros H. destruct (Nat.eqb (jb_lock j') (jb_lock j)); [reflexivity|]. eapply i_lock; eassumption.
      + intros t1 t2 j1 l1 d1 j2 l2 d2. rewrite !put_get. destruct (Nat.eqb t1 t) eqn:E1, (Nat.eqb t2 t) eqn:E2; rewrite ?Nat.eqb_eq in *.
        * congruence.
        * subst t1. rewrite Et. cbn. intros [= <- <- <-] H2 Hl. apply (i_lock _ _ I) in H2. congruence.
        * subst t2. rewrite Et. cbn. intros H1 [= <- <- <-] Hl. apply (i_lock _ _ I) in H1. congruence.
        * apply (i_uniq _ _ I).
      + intros t' j' left' todo'. rewrite put_get. destruct (Nat.eqb t' t) eqn:E.
        * apply Nat.eqb_eq in E. subst t'. rewrite Et. cbn. intros [= <- <- <-]. exists []. split; [reflexivity|]. cbn. rewrite app_nil_r.
          apply (i_out _ _ I). intros t1 j1 l1 d1 H1 Hf. pose proof (i_lock _ _ I _ _ _ _ H1) as L.
          destruct (in_jobs log p t _ j I Et) as (a & Ha & Hja); [now left|]. destruct (in_jobs log p t1 _ j1 I H1) as (b & Hb & Hjb); [now left|].
          rewrite (Hshare b a j1 j Hb Ha Hjb Hja Hf) in L. congruence.
        * apply (i_in _ _ I).
      + intros f Hf. apply (i_out _ _ I). intros t1 j1 l1 d1 H1. apply (Hf t1 j1 l1 d1). rewrite put_get. destruct (Nat.eqb t1 t) eqn:E; [|exact H1].
        apply Nat.eqb_eq in E. subst t1. congruence.
    - (* the lock is released *)
      exists (log ++ [(t, j)]). constructor; cbn [pl_threads pl_locked pl_files].
      + rewrite put_len. apply I.
      + intros x Hx. apply in_app_or in Hx as [Hx|[<-|[]]]; [now apply (i_log _ _ I)|]. cbn. rewrite <- (i_len _ _ I). apply nth_error_Some. congruence.
      + intros t' js th Hj. rewrite put_get, done_snoc, (Nat.eqb_sym t t'). destruct (Nat.eqb t' t) eqn:E.
        * apply Nat.eqb_eq in E. subst t'. rewrite Et. cbn. intros [= <-]. rewrite <- app_assoc. exact (i_own _ _ I _ _ _ Hj Et).
        * intros H. rewrite app_nil_r. exact (i_own _ _ I _ _ _ Hj H).
      + intros t' j' left' todo'. rewrite put_get. unfold upd. destruct (Nat.eqb t' t) eqn:E.
        * apply Nat.eqb_eq in E. subst t'. rewrite Et. discriminate.
        * intros H. destruct (Nat.eqb (jb_lock j') (jb_lock j)) eqn:E2; [|eapply i_lock; eassumption].
          apply Nat.eqb_eq in E2. apply Nat.eqb_neq in E. exfalso. apply E. exact (i_uniq _ _ I _ _ _ _ _ _ _ _ H Et E2).
      + intros t1 t2 j1 l1 d1 j2 l2 d2. rewrite !put_get. destruct (Nat.eqb t1 t) eqn:E1, (Nat.eqb t2 t) eqn:E2; rewrite ?Nat.eqb_eq in *; subst; rewrite ?Et; try discriminate. apply (i_uniq _ _ I).
      + intros t' j' left' todo'. rewrite put_get. destruct (Nat.eqb t' t) eqn:E; [apply Nat.eqb_eq in E; subst t'; rewrite Et; discriminate|].
        intros H. rewrite written_snoc. destruct (Nat.eqb (jb_file j) (jb_file j')) eqn:E2; [|rewrite app_nil_r; exact (i_in _ _ I _ _ _ _ H)].
        apply Nat.eqb_eq in E2. apply Nat.eqb_neq in E. exfalso. apply E. symmetry. exact (same_file _ _ _ _ _ _ _ _ _ _ I Et H E2).
      + intros f Hf. rewrite written_snoc. destruct (Nat.eqb (jb_file j) f) eqn:E2.
        * apply Nat.eqb_eq in E2. subst f. destruct (i_in _ _ I _ _ _ _ Et) as (first & F1 & F2). rewrite app_nil_r in F1. subst first. exact F2.
        * rewrite app_nil_r. apply (i_out _ _ I). intros t1 j1 l1 d1 H1. destruct (Nat.eqb t1 t) eqn:E; [apply Nat.eqb_eq in E; subst t1; rewrite Et in H1; injection H1 as <- <- <-; now apply Nat.eqb_neq|].
          apply (Hf t1 j1 l1 d1). rewrite put_get, E. exact H1.
    - (* one write *)
      exists log. constructor; cbn [pl_threads pl_locked pl_files].
      + rewrite put_len. apply I.
      + apply I.
      + intros t' js th Hj. rewrite put_get. destruct (Nat.eqb t' t) eqn:E.
        * apply Nat.eqb_eq in E. subst t'. rewrite Et. cbn. intros [= <-]. exact (i_own _ _ I _ _ _ Hj Et).
        * intros H. exact (i_own _ _ I _ _ _ Hj H).
      + intros t' j' left' todo'. rewrite put_get. destruct (Nat.eqb t' t) eqn:E.
        * apply Nat.eqb_eq in E. subst t'. rewrite Et. cbn. intros [= <- <- <-]. eapply i_lock; eassumption.
        * apply (i_lock _ _ I).
      + assert (P : forall t1 j1 l1 d1, nth_error (put_nth t (Inside j left todo) (pl_threads p)) t1 = Some (Inside j1 l1 d1) -> exists l2, nth_error (pl_threads p) t1 = Some (Inside j1 l2 d1)).
        { intros t1 j1 l1 d1. rewrite put_get. destruct (Nat.eqb t1 t) eqn:E; [|eauto]. apply Nat.eqb_eq in E. subst t1. rewrite Et. cbn. intros [= <- <- <-]. eauto. }
        intros t1 t2 j1 l1 d1 j2 l2 d2 H1 H2. apply P in H1 as [l1' H1]. apply P in H2 as [l2' H2]. exact (i_uniq _ _ I _ _ _ _ _ _ _ _ H1 H2).
      + intros t' j' left' todo'. rewrite put_get. unfold upd. destruct (Nat.eqb t' t) eqn:E.
        * apply Nat.eqb_eq in E. subst t'. rewrite Et. cbn. intros [= <- <- <-]. rewrite Nat.eqb_refl. destruct (i_in _ _ I _ _ _ _ Et) as (first & F1 & F2).
          exists (first ++ [b]). split; [rewrite <- app_assoc; exact F1|]. rewrite F2, concat_app. cbn. now rewrite app_nil_r, <- !app_assoc.
        * intros H. destruct (Nat.eqb (jb_file j') (jb_file j)) eqn:E2; [|exact (i_in _ _ I _ _ _ _ H)].
          apply Nat.eqb_eq in E2. apply Nat.eqb_neq in E. exfalso. apply E. exact (same_file _ _ _ _ _ _ _ _ _ _ I H Et E2).
      + intros f Hf. unfold upd. destruct (Nat.eqb f (jb_file j)) eqn:E2.
        * apply Nat.eqb_eq in E2. exfalso. apply (Hf t j left todo); [|now symmetry]. now rewrite put_get, Nat.eqb_refl, Et.
        * apply (i_out _ _ I). intros t1 j1 l1 d1 H1. destruct (Nat.eqb t1 t) eqn:E; [apply Nat.eqb_eq in E; subst t1; rewrite Et in H1; injection H1 as <- <- <-; apply Nat.eqb_neq in E2; congruence|].
          apply (Hf t1 j1 l1 d1). rewrite put_get, E. exact H1.
  Qed.
  Lemma inv_turns sched : forall log p, inv log p -> exists log', inv log' (turns sched p).
  Proof. induction sched as [|t s IH]; intros log p I; [now exists log|]. destruct (inv_turn log p t I) as [log' I']. exact (IH log' _ I'). Qed.
  Lemma inv_started : inv [] (started jobs files).
  Proof.
    constructor; cbn [started pl_threads pl_files pl_locked].
    - apply map_length.
    - intros x [].
    - intros t js th Hj H. rewrite nth_error_map, Hj in H. injection H as <-. reflexivity.
    - intros t j l d H. rewrite nth_error_map in H. destruct (nth_error jobs t); discriminate.
    - intros t t' j l d j' l' d' H. rewrite nth_error_map in H. destruct (nth_error jobs t); discriminate.
    - intros t j l d H. rewrite nth_error_map in H. destruct (nth_error jobs t); discriminate.
    - intros f _. cbn. now rewrite app_nil_r.
  Qed.
End Inv.

Lemma C77_whole_pairs_pf :
  forall (jobs : list (list job)) files sched,
  (forall a b ja jb, In a jobs -> In b jobs -> In ja a -> In jb b -> jb_file ja = jb_file jb -> jb_lock ja = jb_lock jb) ->
  let p := turns sched (started jobs files) in
  exists log,
    (forall x, In x log -> fst x < List.length jobs)
    /\ (forall t js, nth_error jobs t = Some js -> exists th, nth_error (pl_threads p) t = Some th /\ js = done_by t log ++ unfinished th)
    /\ (forall f, exists part, pl_files p f = files f ++ written_to f log ++ part /\ (part = [] \/ being_written f p part))
    /\ ((forall th, In th (pl_threads p) -> th = Idle []) ->
          (forall t js, nth_error jobs t = Some js -> js = done_by t log) /\ (forall f, pl_files p f = files f ++ written_to f log)).
Proof.
intros jobs files sched Hs p. destruct (inv_turns jobs files Hs sched [] _ (inv_started jobs files)) as [log I]. fold p in I. exists log.
assert (A : forall t js, nth_error jobs t = Some js -> exists th, nth_error (pl_threads p) t = Some th /\ js = done_by t log ++ unfinished th).
{ intros t js Hj. destruct (nth_error (pl_threads p) t) as [th|] eqn:E.
  - exists th. split; [reflexivity|]. exact (i_own _ _ _ _ I _ _ _ Hj E).
  - exfalso. apply nth_error_None in E. rewrite (i_len _ _ _ _ I) in E. apply nth_error_None in E. congruence. }
split; [apply I|]. split; [exact A|]. split.
- intros f.
  assert (D : (exists t j l d, nth_error (pl_threads p) t = Some (Inside j l d) /\ jb_file j = f) \/ (forall t j l d, nth_error (pl_threads p) t = Some (Inside j l d) -> jb_file j <> f)).
  { destruct (existsb (fun th => match th with Inside j _ _ => Nat.eqb (jb_file j) f | _ => false end) (pl_threads p)) eqn:E.
    - left. apply existsb_exists in E as ([|j l d] & Hin & E); [discriminate|]. apply In_nth_error in Hin as [t Ht]. apply Nat.eqb_eq in E. now exists t, j, l, d.
    - right. intros t j l d Ht Hf. rewrite <- not_true_iff_false in E. apply E. apply existsb_exists. exists (Inside j l d). split; [eapply nth_error_In; exact Ht|now apply Nat.eqb_eq]. }
  destruct D as [(t & j & l & d & Ht & Hf)|D].
  + destruct (i_in _ _ _ _ I _ _ _ _ Ht) as (first & F1 & F2). rewrite Hf in F2. exists (concat first). split; [exact F2|]. right. now exists t, j, l, d, first.
  + exists []. split; [rewrite app_nil_r; now apply (i_out _ _ _ _ I)|now left].
- intros Hall. split.
  + intros t js Hj. destruct (A t js Hj) as (th & Ht & ->). rewrite (Hall th) by (eapply nth_error_In; exact Ht). cbn. now rewrite app_nil_r.
  + intros f. apply (i_out _ _ _ _ I). intros t j l d Ht. apply nth_error_In in Ht. apply Hall in Ht. discriminate.
Qed.

Lemma C77_two_captures_refuted_pf :
  exists jobs sched, let p := turns sched (started jobs (fun _ => [])) in
  (forall th, In th (pl_threads p) -> th = Idle [])
  /\ (forall t js j, nth_error jobs t = Some js -> In j js -> jb_lock j = t /\ jb_file j = 0)
  /\ ~ exists log, (forall x, In x log -> fst x < List.length jobs) /\ (forall t js, nth_error jobs t = Some js -> js = done_by t log) /\ pl_files p 0 = written_to 0 log.
Proof.
exists [[mk_job 0 0 [[1%N]; [2%N]]]; [mk_job 1 0 [[3%N]; [4%N]]]], [0; 1; 0; 1; 0; 1; 0; 1]. cbv zeta. split; [|split].
- intros th Hth. vm_compute in Hth. intuition congruence.
- intros [|[|t]] js j Hj Hin; cbn in Hj; [injection Hj as <-|injection Hj as <-|destruct t; discriminate]; destruct Hin as [<-|[]]; now split.
- intros (log & H0 & H1 & H2). pose proof (H1 0 _ eq_refl) as A. pose proof (H1 1 _ eq_refl) as B.
  change (pl_files _ 0) with [1; 3; 2; 4]%N in H2. unfold written_to in H2.
  destruct log as [|[t j] log]; [discriminate A|]. unfold done_by in A, B. cbn [filter fst snd map] in A, B, H2.
  destruct (Nat.eqb t 0) eqn:E0.
  + apply Nat.eqb_eq in E0. subst t. injection A as <- _. cbn in H2. discriminate.
  + destruct (Nat.eqb t 1) eqn:E1; [injection B as <- _; cbn in H2; discriminate|].
    apply Nat.eqb_neq in E0, E1. specialize (H0 (t, j) (or_introl eq_refl)). cbn in H0. lia.
Qed.

Definition job_cost (j : job) : nat := 2 + List.length (jb_writes j).
Definition jobs_cost (l : list job) : nat := list_sum (map job_cost l).
Definition cost (th : thread) : nat :=
  match th with Idle todo => jobs_cost todo | Inside j rst todo => 1 + List.length rst + jobs_cost todo end.
Definition costs (p : pool) : nat := list_sum (map cost (pl_threads p)).
Lemma put_cost : forall l n th th', nth_error l n = Some th -> cost th' < cost th ->
  list_sum (map cost (put_nth n th' l)) < list_sum (map cost l).
Proof.
  induction l as [|a l IH]; intros [|n] th th' E H; cbn [nth_error] in E; try discriminate.
  - injection E as ->. cbn. lia.
  - cbn. specialize (IH n th th' E H). unfold list_sum in *. lia.
Qed.
Definition fair_inv (n : nat) (p : pool) : Prop :=
  List.length (pl_threads p) = n /\
  forall l, pl_locked p l = true -> exists t j rst todo, nth_error (pl_threads p) t = Some (Inside j rst todo) /\ jb_lock j = l.
Lemma fair_turn n t p : fair_inv n p -> fair_inv n (turn t p).
Proof.
  intros [I1 I2]. unfold turn. destruct (nth_error (pl_threads p) t) as [[[|j todo]|j [|b left] todo]|] eqn:Et; try (now split).
  - destruct (pl_locked p (jb_lock j)) eqn:El; [now split|]. split; cbn [pl_threads pl_locked]; [now rewrite put_len|].
    intros l. unfold upd. destruct (Nat.eqb l (jb_lock j)) eqn:E.
    + intros _. apply Nat.eqb_eq in E. exists t, j, (jb_writes j), todo. split; [|now symmetry]. now rewrite put_get, Nat.eqb_refl, Et.
    + intros H. destruct (I2 l H) as (t' & j' & r' & d' & H1 & H2). exists t', j', r', d'. split; [|exact H2]. rewrite put_get.
      destruct (Nat.eqb t' t) eqn:Q; [|exact H1]. apply Nat.eqb_eq in Q. congruence.
  - split; cbn [pl_threads pl_locked]; [now rewrite put_len|]. intros l. unfold upd. destruct (Nat.eqb l (jb_lock j)) eqn:E; [discriminate|].
    intros H. destruct (I2 l H) as (t' & j' & r' & d' & H1 & H2). exists t', j', r', d'. split; [|exact H2]. rewrite put_get.
    destruct (Nat.eqb t' t) eqn:Q; [|exact H1]. apply Nat.eqb_eq in Q. subst t'. rewrite Et in H1. injection H1 as <- _ _.
    apply Nat.eqb_neq in E. congruence.
  - split; cbn [pl_threads pl_locked]; [now rewrite put_len|]. intros l H. destruct (I2 l H) as (t' & j' & r' & d' & H1 & H2).
    destruct (Nat.eqb t' t) eqn:Q.
    + apply Nat.eqb_eq in Q. subst t'. rewrite Et in H1. injection H1 as <- <- <-. exists t, j, left, todo. split; [|exact H2].
      now rewrite put_get, Nat.eqb_refl, Et.
    + exists t', j', r', d'. split; [|exact H2]. now rewrite put_get, Q.
Qed.
(** a turn does nothing or lowers the cost *)
Lemma turn_cost t p : turn t p = p \/ costs (turn t p) < costs p.
Proof.
  unfold turn. destruct (nth_error (pl_threads p) t) as [[[|j todo]|j [|b rst] todo]|] eqn:Et; try (left; reflexivity).
  - destruct (pl_locked p (jb_lock j)); [now left|right]. apply (put_cost _ _ _ _ Et). unfold cost, jobs_cost, list_sum. cbn [map fold_right]. unfold job_cost. lia.
  - right. apply (put_cost _ _ _ _ Et). cbn. lia.
  - right. apply (put_cost _ _ _ _ Et). cbn. lia.
Qed.
Definition all_done (p : pool) : Prop := forall th, In th (pl_threads p) -> th = Idle [].
(** unless all is done, some thread can move *)
Lemma some_moves n p : fair_inv n p -> all_done p \/ exists t, t < n /\ costs (turn t p) < costs p.
Proof.
  intros [I1 I2].
  assert (forall t th, nth_error (pl_threads p) t = Some th -> t < n) as Hn.
  { intros t th H. rewrite <- I1. apply nth_error_Some. congruence. }
  assert ((exists t j rst todo, nth_error (pl_threads p) t = Some (Inside j rst todo))
          \/ forall th, In th (pl_threads p) -> exists todo, th = Idle todo) as [(t & j & rst & todo & Et)|HI].
  { clear. induction (pl_threads p) as [|th l IH]; [right; intros th []|]. destruct th as [todo|j rst todo].
    - destruct IH as [(t & j & r & d & H)|H]; [left; exists (S t), j, r, d; exact H|right]. intros th [<-|Hin]; [now exists todo|auto].
    - left. exists 0, j, rst, todo. reflexivity. }
  - right. exists t. split; [exact (Hn _ _ Et)|]. unfold turn. rewrite Et. destruct rst as [|b rst]; apply (put_cost _ _ _ _ Et); cbn; lia.
  - assert (forall l, pl_locked p l = false) as Hfree.
    { intros l. destruct (pl_locked p l) eqn:E; [|reflexivity]. destruct (I2 l E) as (t & j & rst & todo & H & _).
      destruct (HI _ (nth_error_In _ _ H)) as (d & Q). discriminate. }
    assert (all_done p \/ exists t j todo, nth_error (pl_threads p) t = Some (Idle (j :: todo))) as [H|(t & j & todo & Et)].
    { unfold all_done. clear - HI. induction (pl_threads p) as [|th l IH]; [left; intros th []|].
      destruct (HI th (or_introl eq_refl)) as ([|j todo] & ->).
      - specialize (IH (fun x Hx => HI x (or_intror Hx))). destruct IH as [H|(t & j & d & H)]; [|right; exists (S t), j, d; exact H].
        left. intros x [<-|Hx]; [reflexivity|auto].
      - right. exists 0, j, todo. reflexivity. }
    + now left.
    + right. exists t. split; [exact (Hn _ _ Et)|]. unfold turn. rewrite Et, Hfree. apply (put_cost _ _ _ _ Et). unfold cost, jobs_cost, list_sum. cbn [map fold_right]. unfold job_cost. lia.
Qed.
Definition at_time (f : nat -> nat) (m : nat) (p : pool) : pool := turns (map f (seq 0 m)) p.
Lemma at_succ f m p : at_time f (S m) p = turn (f m) (at_time f m p).
Proof. unfold at_time, turns. rewrite seq_S, map_app, fold_left_app. reflexivity. Qed.
Lemma at_cost f p m : forall d, at_time f (m + d) p = at_time f m p \/ costs (at_time f (m + d) p) < costs (at_time f m p).
Proof.
  induction d as [|d IH]; [rewrite Nat.add_0_r; now left|]. rewrite Nat.add_succ_r, at_succ.
  destruct (turn_cost (f (m + d)) (at_time f (m + d) p)) as [->|H]; [exact IH|]. right. destruct IH as [IH|IH]; [rewrite IH in *; exact H|lia].
Qed.
Lemma at_inv n f p : fair_inv n p -> forall m, fair_inv n (at_time f m p).
Proof. intros H. induction m as [|m IH]; [exact H|]. rewrite at_succ. now apply fair_turn. Qed.
Lemma done_stays p t : all_done p -> turn t p = p.
Proof.
  intros H. unfold turn. destruct (nth_error (pl_threads p) t) as [th|] eqn:E; [|reflexivity].
  rewrite (H th (nth_error_In _ _ E)). reflexivity.
Qed.

Lemma C77_progress_pf :
  forall (jobs : list (list job)) files (sched : nat -> nat),
  (forall t n, t < List.length jobs -> exists m, n <= m /\ sched m = t) ->
  exists N, forall m, N <= m ->
    forall th, In th (pl_threads (turns (map sched (seq 0 m)) (started jobs files))) -> th = Idle [].
Proof.
intros jobs files f Hfair. set (p0 := started jobs files).
assert (I0 : fair_inv (List.length jobs) p0).
{ split; [unfold p0, started; cbn; apply map_length|discriminate]. }
assert (forall c m, costs (at_time f m p0) <= c -> exists N, all_done (at_time f N p0)) as H.
{ induction c as [c IH] using lt_wf_ind. intros m Hc.
  destruct (some_moves _ _ (at_inv _ f _ I0 m)) as [H|(t & Ht & H)]; [now exists m|].
  destruct (Hfair t m Ht) as (m' & Hm & Ef). replace m' with (m + (m' - m)) in Ef by lia. set (d := m' - m) in *.
  assert (costs (at_time f (S (m + d)) p0) < costs (at_time f m p0)) as Hlt.
  { rewrite at_succ, Ef. destruct (at_cost f p0 m d) as [->|H1]; [exact H|].
    destruct (turn_cost t (at_time f (m + d) p0)) as [->|H2]; lia. }
  apply (IH (costs (at_time f (S (m + d)) p0))) with (m := S (m + d)); lia. }
destruct (H _ 0 (Nat.le_refl _)) as (N & HN). exists N. intros m Hm.
assert (at_time f m p0 = at_time f N p0) as E.
{ replace m with (N + (m - N)) by lia. induction (m - N) as [|d IH]; [now rewrite Nat.add_0_r|].
  rewrite Nat.add_succ_r, at_succ, IH. now apply done_stays. }
fold (at_time f m p0). rewrite E. exact HN.
Qed.
