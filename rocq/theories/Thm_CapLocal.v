(** * Thm_CapLocal: proofs of the theorems restated in Props_CapLocal.v *)
From Coq Require Import String List ZArith NArith Bool.
From Verif Require Import PyBase Headers Streams StreamSpec Loader Writer WriterSpec RoundSpec Capture CaptureSpec Toy CaptureToy.
Import ListNotations.
Open Scope Z_scope.

From Coq Require Import Lia ZifyBool ZifyNat ZifyN.
From Verif Require Import Facts CaptureProofs Thm_Capture.

(** the last beginning or end of a capture in thread [t]: the number of the capture that began, or
    none if a capture ended or there was none; [n]: the captures begun so far, [cur]: so far *)
Fixpoint last_mark (t n : nat) (ops : list op) (cur : option nat) : option nat :=
  match ops with
  | [] => cur
  | Enter t' _ :: ops => last_mark t (S n) ops (if Nat.eqb t' t then Some n else cur)
  | Exit t' :: ops => last_mark t n ops (if Nat.eqb t' t then None else cur)
  | _ :: ops => last_mark t n ops cur
  end.
(** nothing that begins or ends a capture in thread [t] *)
Definition no_mark (t : nat) (o : op) : Prop := match o with Enter t' _ | Exit t' => t' <> t | _ => True end.

Lemma step_marks fuel sha1 k o w : conn_of o <> None ->
  List.length (wd_recs (snd (step fuel sha1 k o w))) = List.length (wd_recs w) /\ wd_local (snd (step fuel sha1 k o w)) = wd_local w
  /\ map cn_rec (wd_conns (snd (step fuel sha1 k o w))) = map cn_rec (wd_conns w).
Proof.
  intros H. destruct (conn_of o) as [i|] eqn:Ec; [|contradiction].
  assert (X : step fuel sha1 k o w = match nth_error (wd_conns w) i with
            | None => (Ok tt, w)
            | Some c =>
                match match cn_rec c with Some j => option_map (fun x => (j, x)) (nth_error (wd_recs w) j) | None => None end with
                | None => (Ok tt, mk_world (wd_recs w) (set_nth i (plain_step o c) (wd_conns w)) (wd_local w) (wd_outs w))
                | Some (j, (cf, r)) =>
                    let '(x, ws, (r, c)) := rstep fuel sha1 k cf o r c in
                    (x, mk_world (set_nth j (cf, r) (wd_recs w)) (set_nth i c (wd_conns w)) (wd_local w)
                          (set_nth (cf_writer cf) (nth (cf_writer cf) (wd_outs w) [] ++ List.concat ws) (wd_outs w)))
                end
            end) by (destruct o; try discriminate Ec; injection Ec as ->; reflexivity).
  rewrite X. clear X. destruct (nth_error (wd_conns w) i) as [x|] eqn:Ex; [|now repeat split].
  assert (S : forall x', cn_rec x' = cn_rec x -> map cn_rec (set_nth i x' (wd_conns w)) = map cn_rec (wd_conns w)).
  { clear - Ex. intros x' Hx. revert i Ex. induction (wd_conns w) as [|a l IH]; intros [|i] Ex; cbn in *; try discriminate; [injection Ex as ->; now rewrite Hx|]. now rewrite IH. }
  match goal with |- context [match ?M with Some _ => _ | None => _ end] => destruct M as [[j [cf r]]|] end.
  - destruct (rstep fuel sha1 k cf o r x) as [[y ws] [r' x']] eqn:E. cbn [snd wd_recs wd_local wd_conns]. split; [apply set_nth_length|]. split; [reflexivity|]. apply S. pose proof (rstep_rec fuel sha1 k cf o r x) as Q. rewrite E in Q. exact Q.
  - cbn [snd wd_recs wd_local wd_conns]. split; [reflexivity|]. split; [reflexivity|]. apply S. clear. destruct x as [? ? ? ? op tn ?]. destruct o as [| | | | |? ? [|? ?]| | | |]; destruct op; destruct tn as [[? ?]|]; reflexivity.
Qed.
Lemma marks fuel sha1 k t : forall ops w, local_of t (wd_local (snd (run fuel sha1 k ops w))) = last_mark t (List.length (wd_recs w)) ops (local_of t (wd_local w)).
Proof.
  induction ops as [|o ops IH]; intros w; [reflexivity|]. cbn [run]. specialize (IH (snd (step fuel sha1 k o w))).
  assert (G : last_mark t (List.length (wd_recs (snd (step fuel sha1 k o w)))) ops (local_of t (wd_local (snd (step fuel sha1 k o w)))) = last_mark t (List.length (wd_recs w)) (o :: ops) (local_of t (wd_local w))).
  { destruct (conn_of o) eqn:E.
    - destruct (step_marks fuel sha1 k o w) as (A & B & _); [congruence|]. rewrite A, B. destruct o; try discriminate E; reflexivity.
    - destruct o; try discriminate E; cbn [step snd wd_recs wd_local last_mark local_of]; [|reflexivity..]. rewrite app_length. cbn [List.length]. now rewrite Nat.add_1_r. }
  rewrite G in IH. destruct (step fuel sha1 k o w) as [y v]. cbn [snd] in *. destruct (run fuel sha1 k ops v). exact IH.
Qed.

Lemma C57_exact_pf :
  forall fuel sha1 k outs ops t host port default tunnel,
  let w := snd (run fuel sha1 k ops (fresh outs)) in
  exists x, nth_error (wd_conns (snd (step fuel sha1 k (Make t host port default tunnel) w))) (List.length (wd_conns w)) = Some x
  /\ cn_rec x = last_mark t 0 ops None.
Proof.
intros fuel sha1 k outs ops t host port default tunnel w. eexists. split; [cbn; rewrite nth_error_app2 by lia; rewrite Nat.sub_diag; reflexivity|]. cbn [cn_rec]. apply (marks fuel sha1 k t ops (fresh outs)).
Qed.

Lemma last_none t : forall mid n cur, Forall (no_mark t) mid -> last_mark t n mid cur = cur.
Proof.
  induction mid as [|o mid IH]; intros n cur H; [reflexivity|]. inversion H as [|? ? H1 H2]; subst. destruct o; cbn [last_mark no_mark] in *; try (now apply IH).
  all: assert (Nat.eqb t0 t = false) as -> by now apply Nat.eqb_neq. all: now apply IH.
Qed.
Lemma last_app t : forall a b n cur, last_mark t n (a ++ b) cur = last_mark t (n + List.length (begun a)) b (last_mark t n a cur).
Proof.
  induction a as [|o a IH]; intros b n cur; cbn [app last_mark begun List.length]; [now rewrite Nat.add_0_r|]. destruct o; cbn [List.length]; rewrite IH; try reflexivity. now rewrite Nat.add_succ_r.
Qed.

Lemma C57_after_end_refuted_pf :
  forall fuel sha1 k outs pre mid t host port default tunnel,
  Forall (no_mark t) mid ->
  let w := snd (run fuel sha1 k (pre ++ Exit t :: mid) (fresh outs)) in
  exists x, nth_error (wd_conns (snd (step fuel sha1 k (Make t host port default tunnel) w))) (List.length (wd_conns w)) = Some x /\ cn_rec x = None.
Proof.
intros fuel sha1 k outs pre mid t host port default tunnel H w. destruct (C57_exact_pf fuel sha1 k outs (pre ++ Exit t :: mid) t host port default tunnel) as (x & A & B). exists x. split; [exact A|].
rewrite B, last_app. cbn [last_mark]. rewrite Nat.eqb_refl. now apply last_none.
Qed.

Lemma C57_kept_pf :
  forall fuel sha1 k ops w c x, nth_error (wd_conns w) c = Some x ->
  exists x', nth_error (wd_conns (snd (run fuel sha1 k ops w))) c = Some x' /\ cn_rec x' = cn_rec x.
Proof.
intros fuel sha1 k. induction ops as [|o ops IH]; intros w c x H; [now exists x|]. cbn [run].
assert (G : exists x', nth_error (wd_conns (snd (step fuel sha1 k o w))) c = Some x' /\ cn_rec x' = cn_rec x).
{ destruct (conn_of o) eqn:E.
  - destruct (step_marks fuel sha1 k o w) as (_ & _ & A); [congruence|]. pose proof (f_equal (fun l => nth_error l c) A) as B. cbv beta in B. rewrite !nth_error_map, H in B. cbn [option_map] in B.
    destruct (nth_error (wd_conns (snd (step fuel sha1 k o w))) c) as [x'|]; [|discriminate]. injection B as B. now exists x'.
  - destruct o; try discriminate E; cbn [step snd wd_conns]; try (now exists x). exists x. split; [|reflexivity]. rewrite nth_error_app1; [exact H|]. apply nth_error_Some. congruence. }
destruct G as (x1 & A & B). destruct (IH _ _ _ A) as (x2 & C & D). destruct (step fuel sha1 k o w) as [y v]. cbn [snd] in *. destruct (run fuel sha1 k ops v). exists x2. split; [exact C|congruence].
Qed.

Lemma C57_late_refuted_pf :
  exists ops late, active 0 0 ops [] = []
  /\ Forall (fun o => match o with Enter _ _ => False | _ => True end) late
  /\ wd_outs (snd (run 300 toy_hash toy_k ops (fresh [[]]))) = [[]]
  /\ (wd_conns (snd (run 300 toy_hash toy_k ops (fresh [[]]))) <> [] /\ Forall (fun x => cn_wire x = []) (wd_conns (snd (run 300 toy_hash toy_k ops (fresh [[]])))))
  /\ wd_outs (snd (run 300 toy_hash toy_k (ops ++ late) (fresh [[]]))) <> [[]].
Proof.
exists (ex_begin false ++ [Exit 0]), (Put 0 :: ex_mid ++ [Done 0 ex_st]). split; [reflexivity|]. split; [repeat (apply Forall_cons; [exact Logic.I|]); apply Forall_nil|]. split; [vm_compute; reflexivity|].
split; [split; [vm_compute; discriminate|]|]. { vm_compute. repeat constructor. } intros X. apply (f_equal (map (@List.length N))) in X. vm_compute in X. discriminate.
Qed.
