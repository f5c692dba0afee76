(** * CutProofs: reading a record whose block is cut off by the end of the file (C38) *)
From Coq Require Import String List ZArith NArith Bool Lia.
From Coq Require Import ZifyBool ZifyNat ZifyN.
From Verif Require Import PyBase Facts Utf8 Headers Streams StreamSpec StreamProofs BufProofs HeaderSpec HeaderProofs Loader Iterator WriterSpec WriterProofs IterSpec IterProofs.
Import ListNotations.
Open Scope Z_scope.

Section Cut.
  Context {zl : zenv} (fuel : nat) (he : henv) (o : lopts) (Q : breader zl raw -> bytes -> Prop) (M T C0 : Z).
  Notation rdr := (breader zl raw).
  Notation rops := (rops (zl:=zl) fuel).
  Notation iter := (@iter zl).
  Hypothesis HRd : reader_ok fuel M Q.
  Hypothesis HM : 0 <= M.
  Hypothesis HPos : forall r c, Q r c -> rw_pos (br_stream r) - rem_length r = T - lenZ c.
  Hypothesis HDec : forall r c, Q r c -> lenZ c < C0 -> has_dec r = false.
  Hypothesis HNext : forall r, Q r [] -> has_dec r = true -> fst (read_next_member r) = false.
  Hypothesis Hno : lo_norec o = true.
  Hypothesis Hck : lo_check o = KFalse.
  Hypothesis Hen : lo_ensure o = false.
  Let HL : exact_full_line rops Q. Proof. now destruct HRd as (? & ? & ? & ?). Qed.
  Let HE : exact_read rops Q. Proof. now destruct HRd as (? & ? & ? & ?). Qed.
  Let HX : forall s c k, Q s c -> 0 < k -> lenZ (takeZ k (take_line c)) <= rM M -> lenZ (takeZ k (take_line c)) <= lenZ c - rL M ->
    exists s', o_readline rops (Some k) s = (Ok (takeZ k (take_line c)), s') /\ Q s' (dropZ (lenZ (takeZ k (take_line c))) c).
  Proof. now destruct HRd as (? & ? & ? & ?). Qed.
  Let HF : forall s c, Q s c -> (List.length c + 3 <= fuel)%nat. Proof. now destruct HRd as (? & ? & ? & ?). Qed.

  Lemma load_cut nl r w head b known :
    wf_record w -> utf8_encode (record_text (w_version w) (w_headers w)) = Some head ->
    at_line fuel Q nl r (head ++ b) -> known <> Some FArc -> lenZ b <= lenZ (w_block w) ->
    exists rc l, parse_record_stream rops fuel he o (match nl with Some l => Some (HBytes l) | None => None end) known r
                 = (Ok rc, rs_base (rc_stream rc))
      /\ rc_stream rc = RSlim l /\ lim_R Q [] l b /\ warc_seen w None (w_block w) rc.
  Proof using HRd HM Hno Hck Hen.
    intros Hwf He Hat Hkn Hb.
    destruct (read_head fuel Q M HL HE HX HF HM nl r w head b (wf_rec_lines _ Hwf) He Hat) as (h & s1 & P & HQ1 & Ep & Eh & Est).
    assert (D : detect_type rops fuel (lo_a2w o) (lo_uuid o) (match nl with Some l => Some (HBytes l) | None => None end) known r = (Ok (false, h), s1)).
    { unfold detect_type. rewrite P. destruct known as [[|]|]; [reflexivity|contradiction|reflexivity]. }
    assert (G : forall n, get_header (lit n) h = w_value n w).
    { intros n. unfold get_header, w_value. rewrite Eh. symmetry. apply value_of_hget. }
    destruct Hwf as (_ & _ & Hu & cl & Ecl & Hcl).
    pose proof (lim_R_new Q s1 _ (lenZ (w_block w)) HQ1 (lenZ_nonneg _)) as HR. rewrite (takeZ_all _ b), (dropZ_all _ b) in HR by assumption.
    unfold parse_record_stream. rewrite D. cbn [andb]. rewrite ensure_plain by (rewrite G; exact Hu).
    rewrite !G, Ecl, (eff_length_ok _ _ Hcl (lenZ_nonneg _)), Hen, Hno, Hck. cbn [ckind_bool negb andb osah_bool].
    match goal with |- context [(Ok (mk_rec ?a ?b ?c ?d ?e ?f ?g ?i ?j), rs_base _)] => exists (mk_rec a b c d e f g i j) end.
    eexists. split; [reflexivity|]. cbn [rc_stream]. split; [reflexivity|]. split; [exact HR|].
    unfold warc_seen. cbn. repeat split; assumption.
  Qed.

  Lemma run_cut k it w head b : (1 < fuel)%nat ->
    wf_record w -> utf8_encode (record_text (w_version w) (w_headers w)) = Some head ->
    resume fuel Q T C0 warc_known it (head ++ b) -> lenZ (head ++ b) <= C0 -> head <> [] -> lenZ b <= lenZ (w_block w) ->
    exists ob, (forall n, run_iter fuel he o (Datatypes.S (Datatypes.S n)) (fun _ => [URead None]) k it = ([ob], EndStop))
      /\ warc_seen w None (w_block w) (ob_record ob) /\ ob_reads ob = [Ok b]
      /\ ob_info ob = Ok (Some (it_offset it, lenZ (head ++ b))).
  Proof.
    intros Hf1 Hwf He Hr Hc0 Hne Hb. pose proof Hr as ((Hat & Hoff & (G1 & G2 & G3)) & _).
    destruct (load_cut _ _ w head b (it_known it) Hwf He Hat G1 Hb) as (rc & l & E & Es & HR & Hseen).
    assert (Hpos : 0 < lenZ (head ++ b)). { rewrite lenZ_app. pose proof (lenZ_pos head Hne). pose proof (lenZ_nonneg b). lia. }
    destruct (lim_rd fuel Q M HL HE HX HF HM [] l b None HR Logic.I) as (l1 & E1 & HR1 & _).
    change (read_of None b) with b in *. rewrite (dropZ_all (lenZ b) b) in HR1 by apply Z.le_refl.
    destruct (lim_rd fuel Q M HL HE HX HF HM [] l1 [] (Some BUFF_SIZE) HR1) as (l2 & E2 & HR2 & _); [cbn; discriminate|].
    change (read_of (Some BUFF_SIZE) []) with (@nil N) in *. rewrite (dropZ_all _ []) in HR2 by apply Z.le_refl.
    pose proof HR2 as (HQ2 & _). cbn [app] in HQ2.
    destruct (HL _ _ HQ2) as (r3 & E3 & HQ3). change (take_line []) with (@nil N) in E3. change (drop_line []) with (@nil N) in HQ3.
    pose proof (HPos _ _ HQ3) as Hp3. pose proof (HDec _ _ HQ3 ltac:(rewrite lenZ_nil; lia)) as Hd3. rewrite lenZ_nil in Hp3.
    set (it1 := set_phase PYield (mk_iter (rs_base (rc_stream rc)) (it_offset it) (if lo_a2w o then it_known it else Some (rc_format rc)) None
                                   (it_next_line it) (it_err_count it) (Some rc) (it_phase it) (it_raise_gz it) (it_empty it))).
    assert (Hf : fuel = Datatypes.S (pred fuel)) by lia.
    assert (X1 : iter_next fuel he o it = (Ok (Some rc), it1)).
    { rewrite (resume_next fuel he o Q M T C0 warc_known HRd HPos HDec it _ Hr). rewrite Hf at 2. cbn [iter_loop]. unfold next_record. rewrite E.
      cbn [it_raise_gz]. unfold it1. rewrite G2. reflexivity. }
    set (it2 := it_set_rstream (RSlim l1) it1).
    assert (X2 : user_ops fuel [URead None] it1 = ([Ok b], it2)).
    { cbn [user_ops user_op]. unfold it1 at 1. cbn [set_phase it_record]. rewrite Es. cbn [rs_read]. rewrite E1. reflexivity. }
    assert (X3 : drain fuel fuel (RSlim l1) = (Ok tt, RSlim l2)).
    { rewrite Hf at 2. cbn [drain rs_read]. rewrite E2. reflexivity. }
    assert (X4 : consume_loop fuel fuel true 0 0 (lm_stream l2) = (Ok (None, 0, 0), r3)).
    { rewrite Hf at 2. cbn [consume_loop]. rewrite E3. reflexivity. }
    set (ia := it_set_reader r3 (it_set_rstream (RSlim l2) it2)).
    set (it3 := mk_iter (it_reader ia) (rw_pos (br_stream r3) - rem_length r3) (it_known ia) (Some (it_offset ia, (rw_pos (br_stream r3) - rem_length r3) - it_offset ia - 0)) None
                   (it_err_count ia + 0) (it_record ia) (it_phase ia) (it_raise_gz ia) (it_empty ia)).
    assert (X5 : read_to_end fuel it2 = (Ok tt, it3)).
    { unfold read_to_end, it2, it_set_rstream at 1 2. cbn [it_record it1 set_phase it_member rc_set_stream rc_stream]. rewrite X3.
      cbn [it_set_rstream it_reader rs_base]. rewrite X4, Hd3. reflexivity. }
    assert (Hres : resume fuel Q T C0 warc_known it3 []).
    { split; [split; [split; [|exact HQ3]|split; [|split; [|split; [exact G2|exact G3]]]]|right].
      - pose proof (HF _ _ HQ3). cbn. cbn in H. lia.
      - unfold it3. cbn [it_offset]. rewrite lenZ_nil. exact Hp3.
      - unfold it3, ia, it2, it1. cbn. destruct (lo_a2w o); [exact G1|]. destruct Hseen as (-> & _). discriminate.
      - split; [reflexivity|]. split; [|rewrite lenZ_nil; lia]. eexists. split; [reflexivity|]. discriminate. }
    exists (mk_obs rc [Ok b] (Ok (it_member it3)) (it_passed it3)). split; [|split; [exact Hseen|split; [reflexivity|]]].
    - intros n. pose proof (run_end fuel he o Q M T C0 warc_known HRd HPos HDec HNext n (fun _ => [URead None]) (Datatypes.S k) it3 Hres) as X6.
      remember (Datatypes.S n) as m eqn:Em. clear Em. cbn [run_iter]. rewrite X1, X2. unfold get_offset_length. rewrite X5, X6. reflexivity.
    - unfold it3, ia, it2, it1. cbn [ob_info it_member it_set_reader it_set_rstream set_phase it_offset]. do 3 f_equal. rewrite Hp3, Hoff. lia.
  Qed.
End Cut.

(** an archive that ends inside the block of its last record *)
Lemma cut_archive {zl : zenv} fuel he o es w head b sched block known :
  gz_magic zl -> first_two block sched -> lo_norec o = true -> lo_check o = KFalse -> lo_ensure o = false -> known <> Some FArc ->
  enough fuel (texts es ++ head ++ b) ->
  (forall i e, nth_error es i = Some e -> good_entry fuel he o 0 [URead None] e) ->
  wf_record w -> utf8_encode (record_text (w_version w) (w_headers w)) = Some head -> lenZ b <= lenZ (w_block w) ->
  exists obs ob, (forall n, run_iter (zl:=zl) fuel he o (List.length es + S (S n)) (fun _ => [URead None]) 0
      (iter_new (raw_open (texts es ++ head ++ b) sched) block known) = (obs ++ [ob], EndStop))
    /\ List.length obs = List.length es
    /\ (forall i e ob, nth_error es i = Some e -> nth_error obs i = Some ob ->
         observed he o (e_rec e) (e_http e) (e_payload e) (position i es) (lenZ (e_text e) - 4) [URead None] ob)
    /\ warc_seen w None (w_block w) (ob_record ob) /\ ob_reads ob = [Ok b] /\ ob_info ob = Ok (Some (lenZ (texts es), lenZ (head ++ b))).
Proof.
  intros Hz Hb Hno Hck Hoff Hk Hfu Hgood Hwf He Hle.
  assert (Htx : forall e, In e es -> exists head, e_text e = head ++ w_block (e_rec e) ++ [13; 10; 13; 10]%N).
  { intros e H. apply In_nth_error in H as (i & Hi). exact (good_entry_text _ _ _ _ _ _ (Hgood i e Hi)). }
  pose proof (entry_items_text (zl:=zl) he o es Htx) as Etx.
  assert (Hhd : exists a x t, head ++ b = a :: x :: t /\ (a, x) <> (31%N, 139%N) /\ head <> []).
  { destruct Hwf as (Hv0 & _). unfold utf8_encode in He. destruct (forallb is_scalar _); [|discriminate].
    injection He as <-. unfold record_text. destruct (warc_types_in _ Hv0) as [->|[->|[->| ->]]]; eexists _, _, _; (split; [reflexivity|split; discriminate]). }
  destruct Hhd as (a & x & t & Ehd & Hax & Hne).
  assert (Hst : starts_text (head ++ b)).
  { right. destruct Hwf as (Hv0 & _). clear - He Hv0. unfold utf8_encode in He. destruct (forallb is_scalar _); [|discriminate].
    injection He as <-. unfold record_text. intros E. apply rstripp_nil_all in E. rewrite forallb_forall in E.
    specialize (E 87%N). assert (PyBase.is_bspace 87 = true) as X; [apply E|discriminate].
    destruct (warc_types_in _ Hv0) as [->|[->|[->| ->]]]; cbn; now left. }
  destruct (plain_start (zl:=zl) fuel he o 0 warc_known (fun _ => [URead None]) 0 (map (entry_item he o) es) (head ++ b) sched block known)
    as (obs & it' & E & Hl & Hob & Q & T & C0 & HRd & HPos & HDec & HNext & Hr & Hc0 & Ho); auto.
  { left. discriminate. }
  { lia. }
  { now rewrite Etx. }
  { apply Forall_forall. intros y Hx. apply in_map_iff in Hx as (e & <- & H). apply In_nth_error in H as (i & Hi).
    apply (entry_item_ok fuel he o 0 [URead None] e (Z.le_refl 0) Hoff (Hgood i e Hi)). }
  { intros i y Hi. rewrite nth_error_map in Hi. destruct (nth_error es i) as [e|] eqn:En; [|discriminate]. injection Hi as <-.
    destruct (Hgood i e En) as (_ & _ & _ & _ & _ & A & B). now split. }
  { clear. induction es as [|e es IH]; [exact Logic.I|]. split; [|exact IH]. left. exists [13; 10; 13]%N. split; reflexivity. }
  { intros _. right. eauto. }
  rewrite map_length in *. rewrite Etx in *.
  destruct (run_cut (zl:=zl) fuel he o Q 0 T C0 HRd (Z.le_refl 0) HPos HDec HNext Hno Hck Hoff (List.length es) it' w head b) as (ob & R1 & R2 & R3 & R4); auto.
  { unfold enough in Hfu. lia. }
  exists obs, ob. split; [|split; [exact Hl|split; [|split; [exact R2|split; [exact R3|]]]]].
  - intros n. change (raw_open (texts es ++ head ++ b) sched) with (mk_raw (texts es ++ head ++ b) 0 sched). rewrite E, R1. reflexivity.
  - intros i e ob' Hi Hi'. assert (nth_error (map (entry_item (zl:=zl) he o) es) i = Some (entry_item he o e)) as Hi2 by now rewrite nth_error_map, Hi.
    pose proof (Hob i _ ob' Hi2 Hi') as X. rewrite firstn_map, entry_items_text in X by (intros y Hy; apply Htx; revert Hy; clear; revert es; induction i as [|i IH]; intros [|a es]; cbn; try tauto; intros [->|H]; auto).
    rewrite (proj2 (entry_item_text he o e (Htx e (nth_error_In _ _ Hi)))) in X. apply entry_observed. exact X.
  - rewrite R4, Ho. reflexivity.
Qed.
