(** * JunkProofs: records followed by one line that is not blank (archiveiterator.py:155-193) *)
From Coq Require Import String List ZArith NArith Bool Lia.
From Coq Require Import ZifyBool ZifyNat ZifyN.
From Verif Require Import PyBase Facts Utf8 Headers Streams StreamSpec StreamProofs BufProofs FillProofs CallProofs
  HeaderSpec HeaderProofs DigestSpec DigestProofs DigStep Thm_Headers Loader Iterator SimProofs WriterSpec WriterProofs IterSpec IterProofs.
Import ListNotations.
Open Scope Z_scope.

(** every line but the first is blank *)
Definition loose (t : bytes) : Prop := forallb is_bspace (drop_line t) = true.
Definition item_okj {zl} fuel he o (M : rlim) K (x : item zl) : Prop :=
  loadable fuel he o M K (i_core x) (i_payload x) (i_V x) (i_P x)
  /\ (forall more, starts_text (i_core x ++ more)) /\ exists a b t, i_core x = a :: b :: t /\ (a, b) <> (31%N, 139%N).
Fixpoint loose_ok {zl} (xs : list (item zl)) (more : bytes) : Prop :=
  match xs with
  | [] => True
  | x :: t => (loose (i_tail x) /\ ((exists a, i_tail x = a ++ [LF]) \/ (t = [] /\ more = []))) /\ loose_ok t more
  end.

Lemma line_split a more : take_line ((a ++ [LF]) ++ more) = take_line (a ++ [LF]) /\ drop_line ((a ++ [LF]) ++ more) = drop_line (a ++ [LF]) ++ more
  /\ take_line (a ++ [LF]) <> [] /\ (drop_line (a ++ [LF]) = [] \/ exists a', drop_line (a ++ [LF]) = a' ++ [LF])
  /\ (List.length (drop_line (a ++ [LF])) < List.length (a ++ [LF]))%nat.
Proof.
  induction a as [|x a (E1 & E2 & E3 & E4 & E5)].
  - cbn. split; [reflexivity|]. split; [reflexivity|]. split; [discriminate|]. split; [now left|lia].
  - cbn [app take_line drop_line]. destruct (x =? LF)%N eqn:E.
    + split; [reflexivity|]. split; [reflexivity|]. split; [discriminate|]. split; [right; now exists a|cbn; lia].
    + rewrite E1, E2. split; [reflexivity|]. split; [reflexivity|]. split; [discriminate|]. split; [exact E4|cbn [List.length]; lia].
Qed.
Lemma skipped_loose fuel t more rest' : skipped fuel (t ++ more) rest' -> loose t -> (exists a, t = a ++ [LF]) -> starts_text more ->
  (List.length (t ++ more) + 2 < fuel)%nat -> rest' = more.
Proof.
  intros (nl & sz & er & c' & E & ->) Hl (a & ->) Ht Hf. unfold loose in Hl. rewrite app_length in Hf.
  destruct (line_split a more) as (E1 & E2 & E3 & E4 & E5). destruct fuel as [|n]; [lia|]. cbn [skip_blank] in E. rewrite E1, E2 in E.
  destruct (take_line (a ++ [LF])) as [|x line]; [contradiction|]. rewrite orb_true_r in E.
  destruct E4 as [E4|(a' & E4)]; rewrite E4 in *.
  - cbn [app] in E. destruct n as [|n]; [lia|]. cbn [skip_blank] in E. pose proof (take_drop_line more) as Hs. pose proof (take_line_nil more) as Hnil.
    unfold starts_text in Ht. destruct (take_line more) as [|y l2].
    + injection E as <- _ _ <-. now rewrite (proj1 Hnil eq_refl).
    + destruct Ht as [->|Ht]; [discriminate|]. destruct (rstripp is_bspace (y :: l2)); [contradiction|]. cbn [is_nil orb] in E.
      injection E as <- _ _ <-. exact Hs.
  - destruct (skip_blank_tail more Ht n a' false (0 + lenZ (x :: line)) (if is_nil (rstripp is_bspace (x :: line)) then 0 else 0 + 1) Hl ltac:(lia))
      as (nl' & sz' & er' & c2 & E' & E6).
    rewrite E' in E. injection E as <- _ _ <-. now rewrite E6.
Qed.
Lemma skipped_loose_end fuel t rest' : skipped fuel t rest' -> loose t -> (List.length t + 2 < fuel)%nat -> rest' = [].
Proof.
  intros (nl & sz & er & c' & E & ->) Hl Hf. unfold loose in Hl. destruct fuel as [|n]; [lia|]. cbn [skip_blank] in E.
  pose proof (take_drop_line t) as Hs. pose proof (take_line_nil t) as Hnil. destruct (take_line t) as [|x line].
  - injection E as <- _ _ <-. reflexivity.
  - rewrite orb_true_r in E. destruct (skip_all n _ _ _ _ _ _ _ _ Hl ltac:(rewrite <- Hs, app_length in Hf; cbn [List.length] in Hf; lia) E) as [-> ->]. reflexivity.
Qed.

Section Loose.
  Context {zl : zenv} (fuel : nat) (he : henv) (o : lopts) (Q : breader zl raw -> bytes -> Prop) (M T C0 : Z) (K : option fmt -> Prop).
  Notation rdr := (breader zl raw).
  Notation rops := (rops (zl:=zl) fuel).
  Notation iter := (@iter zl).
  Notation good_core := (good_core (zl:=zl) K).
  Hypothesis HRd : reader_ok fuel M Q.
  Hypothesis HM : 0 <= M.
  Hypothesis HPos : forall r c, Q r c -> rw_pos (br_stream r) - rem_length r = T - lenZ c.
  Hypothesis HDec : forall r c, Q r c -> lenZ c < C0 -> has_dec r = false.
  Hypothesis HNext : forall r, Q r [] -> has_dec r = true -> fst (read_next_member r) = false.
  Let HL : exact_full_line rops Q. Proof. now destruct HRd as (? & ? & ? & ?). Qed.
  Let HE : exact_read rops Q. Proof. now destruct HRd as (? & ? & ? & ?). Qed.
  Let HX : forall s c k, Q s c -> 0 < k -> lenZ (takeZ k (take_line c)) <= rM M -> lenZ (takeZ k (take_line c)) <= lenZ c - rL M ->
    exists s', o_readline rops (Some k) s = (Ok (takeZ k (take_line c)), s') /\ Q s' (dropZ (lenZ (takeZ k (take_line c))) c).
  Proof. now destruct HRd as (? & ? & ? & ?). Qed.
  Let HF : forall s c, Q s c -> (List.length c + 3 <= fuel)%nat. Proof. now destruct HRd as (? & ? & ? & ?). Qed.
  Lemma run_loose prog : forall xs k,
    Forall (item_okj fuel he o M K) xs ->
    (forall i x, nth_error xs i = Some x -> nonneg_ops (prog (k + i)%nat) /\ user_lines M (prog (k + i)%nat) (i_payload x)) ->
    forall more it, resume fuel Q T C0 K it (i_texts xs ++ more) -> loose_ok xs more -> starts_text more -> lenZ (i_texts xs ++ more) <= C0 ->
    exists obs it', (forall n, run_iter fuel he o (List.length xs + n) prog k it
        = (let (os, en) := run_iter fuel he o n prog (k + List.length xs) it' in (obs ++ os, en)))
      /\ List.length obs = List.length xs
      /\ (forall i x ob, nth_error xs i = Some x -> nth_error obs i = Some ob ->
           item_seen (prog (k + i)%nat) x (it_offset it + lenZ (i_texts (firstn i xs))) (lenZ (i_core x)) ob)
      /\ resume fuel Q T C0 K it' more /\ it_offset it' = it_offset it + lenZ (i_texts xs).
  Proof.
    induction xs as [|x xs IH]; intros k Hgood Huse more it Hr Htl Hmore Hc0.
    - exists [], it. cbn [List.length plus app i_texts map concat] in *. split; [intros n; rewrite Nat.add_0_r; destruct (run_iter fuel he o n prog k it); reflexivity|].
      split; [reflexivity|]. split; [intros [|i] ? ? Hi; discriminate|]. split; [exact Hr|]. cbn. lia.
    - pose proof (Huse 0%nat x eq_refl) as Hux. rewrite Nat.add_0_r in Hux. destruct Hux as [Hnn Hu].
      inversion Hgood as [|? ? Hx Hxs]; subst. destruct Hx as (HP & _ & (a & b & t & Ec & _)). destruct Htl as [[Hwh Htl] Htls].
      unfold i_texts in *. cbn [map concat List.length plus] in *. unfold i_text at 1 in Hr. unfold i_text at 1 in Hc0.
      rewrite <- !app_assoc in Hr, Hc0.
      assert (Hst : starts_text (concat (map i_text xs) ++ more)).
      { destruct xs as [|x' xs']; [exact Hmore|]. cbn [map concat]. unfold i_text at 1. rewrite <- !app_assoc.
        inversion Hxs as [|? ? (_ & Hx' & _) _]; subst. apply Hx'. }
      destruct (run_one fuel he o Q M T C0 K HRd HM HPos HDec HNext prog k it (i_core x) _ (i_payload x) (i_V x) (i_P x) Hr Hc0 ltac:(rewrite Ec; discriminate) HP Hnn Hu) as (ob & it1 & rest' & E & Hob & Hsk & Hr1).
      assert (rest' = concat (map i_text xs) ++ more).
      { destruct Hr as (((Hfu & _) & _) & _). rewrite Ec in Hfu. cbn [app List.length] in Hfu. rewrite !app_length in Hfu. destruct Htl as [Hbl|[-> ->]].
        - apply (skipped_loose fuel (i_tail x) (concat (map i_text xs) ++ more) rest' Hsk Hwh Hbl Hst). rewrite !app_length. lia.
        - cbn [map concat app] in *. rewrite app_nil_r in Hsk. apply (skipped_loose_end fuel (i_tail x) rest' Hsk Hwh). lia. }
      subst rest'.
      assert (Eo : it_offset it1 = it_offset it + lenZ (i_text x)).
      { destruct Hr1 as ((_ & Ho1 & _) & _), Hr as ((_ & Ho & _) & _). rewrite Ho1, Ho. unfold i_text. rewrite !lenZ_app. lia. }
      destruct (IH (Datatypes.S k) Hxs) with (more := more) (it := it1) as (obs & it' & E2 & Hlen & Hobs & Hr2 & Ho2); auto.
      { intros i e' Hi. replace (Datatypes.S k + i)%nat with (k + Datatypes.S i)%nat by lia. now apply Huse. }
      { rewrite !lenZ_app in *. pose proof (lenZ_nonneg (i_core x)). pose proof (lenZ_nonneg (i_tail x)). lia. }
      exists (ob :: obs), it'. split; [|split; [|split; [|split; [exact Hr2|]]]].
      + intros n. rewrite E, E2. replace (k + Datatypes.S (List.length xs))%nat with (Datatypes.S k + List.length xs)%nat by lia.
        destruct (run_iter fuel he o n prog _ it'); reflexivity.
      + cbn. now rewrite Hlen.
      + intros [|i] e' ob' Hi Hi'; cbn [nth_error] in Hi, Hi'.
        * injection Hi as <-. injection Hi' as <-. rewrite Nat.add_0_r. cbn [firstn map concat]. rewrite lenZ_nil, Z.add_0_r. specialize (Hob (i_tail x)). destruct x; exact Hob.
        * pose proof (Hobs i e' ob' Hi Hi') as X. replace (k + Datatypes.S i)%nat with (Datatypes.S k + i)%nat by lia.
          replace (it_offset it + lenZ (concat (map i_text (firstn (Datatypes.S i) (x :: xs))))) with (it_offset it1 + lenZ (concat (map i_text (firstn i xs)))); [exact X|].
          rewrite Eo. cbn [firstn map concat]. rewrite lenZ_app. lia.
      + rewrite Ho2, Eo, lenZ_app. lia.
  Qed.
End Loose.
Lemma loose_start {zl : zenv} fuel he o M K prog p (xs : list (item zl)) more sched block known :
  gz_magic zl -> first_two block sched -> reads_fit M block sched -> 0 <= M ->
  enough fuel (i_texts xs ++ more) ->
  Forall (item_okj fuel he o M K) xs ->
  (forall i x, nth_error xs i = Some x -> nonneg_ops (prog i) /\ user_lines M (prog i) (i_payload x)) ->
  K known -> loose_ok xs more -> starts_text more ->
  (xs = [] -> more = [] \/ exists a b t, more = a :: b :: t /\ (a, b) <> (31%N, 139%N)) ->
  exists obs it', (forall n, run_iter (zl:=zl) fuel he o (List.length xs + n) prog 0 (iter_new (mk_raw (i_texts xs ++ more) p sched) block known)
      = (let (os, en) := run_iter fuel he o n prog (List.length xs) it' in (obs ++ os, en)))
    /\ List.length obs = List.length xs
    /\ (forall i x ob, nth_error xs i = Some x -> nth_error obs i = Some ob ->
         item_seen (prog i) x (p + lenZ (i_texts (firstn i xs))) (lenZ (i_core x)) ob)
    /\ exists Q T C0, reader_ok fuel M Q /\ (forall r c, Q r c -> rw_pos (br_stream r) - rem_length r = T - lenZ c)
         /\ (forall r c, Q r c -> lenZ c < C0 -> has_dec r = false) /\ (forall r, Q r [] -> has_dec r = true -> fst (read_next_member r) = false)
         /\ resume fuel Q T C0 K it' more /\ lenZ more <= C0 /\ it_offset it' = p + lenZ (i_texts xs).
Proof.
  intros Hz [Hb Hs] Hfit HM Hfu Hgood Huse Hk Htl Hmore Hmagic.
  set (data := i_texts xs ++ more) in *. set (f := mk_raw data p sched). set (T := p + lenZ data). set (C0 := lenZ data).
  assert (G : exists R : raw -> bytes -> Prop, delivers raw_ops R /\ R f data /\ (forall s c, R s c -> raw_R T fuel s c) /\ full_ok raw_ops R M false block 0).
  { assert (Hraw : raw_R T fuel f data) by (unfold raw_R, f, T; cbn; repeat split; exact Hfu).
    destruct Hfit as [Hfit|[-> Hfit]].
    - exists (raw_R T fuel). split; [apply raw_delivers|]. split; [exact Hraw|]. split; [auto|]. now left.
    - exists (raw_RX T fuel). split; [apply raw_deliversX|]. split; [split; [exact Hraw|reflexivity]|].
      split; [now intros s c [H _]|]. right. split; [apply raw_exact_read|exact Hfit]. }
  destruct G as (R & HD & HR & HRr & Hfull).
  assert (Hd : data = [] \/ exists a b t, data = a :: b :: t /\ (a, b) <> (31%N, 139%N)).
  { destruct xs as [|x xs']; [exact (Hmagic eq_refl)|]. right. inversion Hgood as [|? ? (_ & _ & (a & b & t & Ec & Hab)) _]; subst.
    unfold data, i_texts. cbn [map concat]. unfold i_text at 1. rewrite Ec. cbn [app]. eauto. }
  assert (Hfirst : forall d s', o_read raw_ops (Some block) f = (Ok d, s') -> data = [] \/ 2 <= lenZ d).
  { intros d s' E. destruct Hd as [->|(a & b & t & Ed & _)]; [now left|right].
    unfold raw_ops, o_read, raw_read, f in E. cbn [rw_rest rw_sched rw_pos] in E. replace (0 <? block) with true in E by lia.
    rewrite Ed in E.
    assert (G : forall m, 2 <= m -> 2 <= lenZ (takeZ m (a :: b :: t))).
    { intros m Hm. rewrite lenZ_takeZ by lia. rewrite !lenZ_cons. pose proof (lenZ_nonneg t). lia. }
    destruct sched as [|k sc]; injection E as <- <-; apply G; lia. }
  pose proof (plainQ_open (zl:=zl) fuel M R f _ block HD HR Hz Hb Hfull Hfu Hd Hfirst) as HQ. fold C0 in HQ.
  pose proof (plainQ_ok (zl:=zl) fuel M T C0 R HD HRr) as FO.
  pose proof (br_full_line raw_ops fuel M _ FO) as HL.
  pose proof (br_exact_read raw_ops fuel M _ FO) as HE.
  pose proof (fun s c k HQ' Hk' Hle => br_readline_exact0 raw_ops fuel M _ FO s c k HQ' Hk' Hle) as HX.
  pose proof (fo_fuel _ _ _ _ FO) as HF.
  pose proof (plainQ_pos (zl:=zl) fuel M T C0 R HD HRr) as HPos.
  pose proof (plainQ_dec (zl:=zl) fuel M T C0 R HRr) as HDec.
  assert (HNext : forall r, plainQ (zl:=zl) fuel M C0 R r [] -> has_dec r = true -> fst (read_next_member r) = false)
    by (intros r0 HQr Hdr; eapply plainQ_next; eassumption).
  assert (HRd : reader_ok fuel M (plainQ fuel M C0 R)) by (split; [exact HL|split; [exact HE|split; [intros s c k A1 A2 A3 _; exact (HX s c k A1 A2 A3)|exact HF]]]).
  assert (Hres : resume fuel (plainQ fuel M C0 R) T C0 K (iter_new (zl:=zl) f block known) data).
  { split; [|left; split; reflexivity]. split; [split; [exact Hfu|exact HQ]|]. split; [unfold T; cbn; lia|].
    repeat split. exact Hk. }
  destruct (run_loose (zl:=zl) fuel he o (plainQ fuel M C0 R) M T C0 K HRd HM HPos HDec HNext prog xs 0%nat Hgood Huse
              more (iter_new (zl:=zl) f block known) Hres Htl Hmore (Z.le_refl _)) as (obs & it' & E & Hlen & Hobs & Hr & Ho).
  exists obs, it'. split; [exact E|]. split; [exact Hlen|]. split; [exact Hobs|].
  exists (plainQ fuel M C0 R), T, C0. split; [exact HRd|]. split; [exact HPos|]. split; [exact HDec|]. split; [exact HNext|]. split; [exact Hr|].
  split; [unfold C0, data; rewrite lenZ_app; pose proof (lenZ_nonneg (i_texts xs)); lia|exact Ho].
Qed.

Lemma loose_items {zl : zenv} fuel he o M K prog p (xs : list (item zl)) more sched block known :
  gz_magic zl -> first_two block sched -> reads_fit M block sched -> 0 <= M ->
  enough fuel (i_texts xs ++ more) ->
  Forall (item_okj fuel he o M K) xs ->
  (forall i x, nth_error xs i = Some x -> nonneg_ops (prog i) /\ user_lines M (prog i) (i_payload x)) ->
  K known -> loose_ok xs more -> starts_text more ->
  (xs = [] -> more = [] \/ exists a b t, more = a :: b :: t /\ (a, b) <> (31%N, 139%N)) ->
  exists obs it', (forall n, run_iter (zl:=zl) fuel he o (List.length xs + n) prog 0 (iter_new (mk_raw (i_texts xs ++ more) p sched) block known)
      = (let (os, en) := run_iter fuel he o n prog (List.length xs) it' in (obs ++ os, en)))
    /\ List.length obs = List.length xs
    /\ (forall i x ob, nth_error xs i = Some x -> nth_error obs i = Some ob ->
         item_seen (prog i) x (p + lenZ (i_texts (firstn i xs))) (lenZ (i_core x)) ob)
    /\ (more = [] -> forall n, run_iter fuel he o (Datatypes.S n) prog (List.length xs) it' = ([], EndStop))
    /\ (forall core rest payload V P, more = core ++ rest -> core <> [] -> loadable fuel he o M K core payload V P ->
          nonneg_ops (prog (List.length xs)) -> user_lines M (prog (List.length xs)) payload ->
          exists ob it2, (forall n, run_iter fuel he o (Datatypes.S n) prog (List.length xs) it'
                = (let (os, en) := run_iter fuel he o n prog (Datatypes.S (List.length xs)) it2 in (ob :: os, en)))
            /\ forall tl, item_seen (prog (List.length xs)) (mk_item core tl payload V P) (p + lenZ (i_texts xs)) (lenZ core) ob).
Proof.
  intros Hz Hf Hfit HM Hfu Hgood Huse Hk Htl Hmore Hmagic.
  destruct (loose_start fuel he o M K prog p xs more sched block known Hz Hf Hfit HM Hfu Hgood Huse Hk Htl Hmore Hmagic)
    as (obs & it' & E & Hlen & Hobs & Q & T & C0 & HRd & HPos & HDec & HNext & Hr & Hc0 & Ho).
  exists obs, it'. split; [exact E|]. split; [exact Hlen|]. split; [exact Hobs|]. split.
  - intros Em n. rewrite Em in Hr. eapply (run_end (zl:=zl) fuel he o Q) with (T := T) (C0 := C0); eassumption.
  - intros core rest payload V P Em Hne HP Hnn Hu. rewrite Em in Hr, Hc0.
    destruct (run_one fuel he o Q M T C0 K HRd HM HPos HDec HNext prog (List.length xs) it' core rest payload V P Hr)
      as (ob & it2 & rest' & E2 & Hob & _); try assumption.
    exists ob, it2. split; [exact E2|]. rewrite Ho in Hob. exact Hob.
Qed.
