(** * BlankProofs: what iteration does with a file that begins with a blank line *)
From Coq Require Import String List ZArith NArith Bool Lia.
From Coq Require Import ZifyBool ZifyNat ZifyN.
From Verif Require Import PyBase Facts Utf8 Headers Streams StreamSpec StreamProofs BufProofs FillProofs CallProofs
  HeaderSpec HeaderProofs Loader Iterator SimProofs IterSpec IterProofs.
Import ListNotations.
Open Scope Z_scope.

Section Blank.
  Context {zl : zenv} (fuel : nat) (he : henv) (o : lopts) (Q : breader zl raw -> bytes -> Prop) (T C0 : Z).
  Notation rdr := (breader zl raw).
  Notation rops := (rops (zl:=zl) fuel).
  Notation iter := (@iter zl).
  Hypothesis HL : exact_full_line rops Q.
  Hypothesis HE : exact_read rops Q.
  Hypothesis HF : forall s c, Q s c -> (List.length c + 3 <= fuel)%nat.
  Hypothesis HPos : forall r c, Q r c -> rw_pos (br_stream r) - rem_length r = T - lenZ c.
  Hypothesis HDec : forall r c, Q r c -> lenZ c < C0 -> has_dec r = false.

  Hypothesis HA : exact_full_read rops Q.

  Lemma decode_nonempty l : l <> [] -> decode_header l <> [].
  Proof using. clear.
    intros Hl Hd. apply Hl. unfold decode_header, latin1_decode in Hd. destruct (utf8_decode l) as [d|] eqn:Ed; [|assumption]. subst d.
    destruct l as [|b t]; [reflexivity|exfalso]. now apply utf8_decode_ne in Ed.
  Qed.

  Lemma swallow (r : rdr) known l d : Q r (l ++ d) -> is_line l -> urstrip (decode_header l) = [] -> known <> Some FArc ->
    lo_ensure o = false -> 0 < C0 -> lenZ (l ++ d) <= C0 ->
    exists ob, (forall n, run_iter fuel he o (Datatypes.S (Datatypes.S n)) (fun _ => [URead None]) 0
                  (mk_iter r (T - lenZ (l ++ d)) known None None 0 None PStart false false) = ([ob], EndStop))
      /\ rc_type (ob_record ob) = None /\ sh_headers (rc_headers (ob_record ob)) = [] /\ rc_http (ob_record ob) = None
      /\ ob_reads ob = [Ok d] /\ ob_info ob = Ok (Some (T - lenZ (l ++ d), lenZ (l ++ d))).
  Proof.
    intros HQ Hl Hb Hk Hen HC0 Hle. pose proof (HF _ _ HQ) as Hfu.
    destruct (is_line_take l d Hl) as [Etl Edl].
    destruct (HL _ _ HQ) as (s1 & E1 & HQ1). rewrite Etl in E1. rewrite Edl in HQ1.
    assert (Hln : l <> []). { destruct Hl as (a & _ & ->). now destruct a. }
    assert (Htot : (lenZ (decode_header l) =? 0) = false).
    { apply Z.eqb_neq. intros X. apply lenZ_0 in X. now apply decode_nonempty in X. }
    destruct (HA _ _ HQ1) as (s2 & E2 & HQ2).
    destruct (HE _ _ BUFF_SIZE HQ2 ltac:(reflexivity)) as (s3 & E3 & HQ3).
    assert (Et : takeZ BUFF_SIZE (@nil N) = []) by reflexivity. rewrite Et in E3.
    assert (Edp : dropZ BUFF_SIZE (@nil N) = []) by reflexivity. rewrite Edp in HQ3.
    destruct (HL _ _ HQ3) as (s4 & E4 & HQ4). cbn [take_line drop_line] in E4, HQ4.
    destruct (HL _ _ HQ4) as (s5 & E5 & HQ5). cbn [take_line drop_line] in E5, HQ5.
    assert (Hd4 : has_dec s4 = false) by (apply (HDec _ _ HQ4); exact HC0).
    assert (Hd5 : has_dec s5 = false) by (apply (HDec _ _ HQ5); exact HC0).
    pose proof (HPos _ _ HQ4) as Hp4. cbn in Hp4.
    set (h := mk_sah [] [] [] (lenZ (decode_header l)) None).
    set (rc := mk_rec FWarc None h (RSbase s1) None None None (-1) (chk_new (lo_check o)) : record rdr).
    assert (P1 : parse_record_stream rops fuel he o None known r = (Ok rc, s1)).
    { unfold parse_record_stream, detect_type, parse. rewrite E1. cbn [decode_hline]. rewrite Htot, Hb. cbn [is_nil]. fold h.
      destruct known as [[|]|]; [|contradiction|]; cbn; rewrite Hen; destruct (lo_norec o); reflexivity. }
    assert (P2 : forall k, parse_record_stream rops fuel he o None k s4 = (Err EOFError, s5)).
    { intros k. unfold parse_record_stream, detect_type, parse. rewrite E5. cbn. unfold arc_parse. rewrite E5. cbn. destruct k as [[|]|]; reflexivity. }
    assert (Dr : forall n, drain fuel (Datatypes.S n) (RSbase s2) = (Ok tt, RSbase s3)).
    { intros n. cbn [drain rs_read]. rewrite E3. reflexivity. }
    assert (Cn : forall n, consume_loop fuel (Datatypes.S n) true 0 0 s3 = (Ok (None, 0, 0), s4)).
    { intros n. cbn [consume_loop]. rewrite E4. reflexivity. }
    assert (Hf0 : exists f', fuel = Datatypes.S f') by (exists (pred fuel); lia). destruct Hf0 as (f' & Ef).
    set (off := T - lenZ (l ++ d)).
    set (kn := if lo_a2w o then known else Some FWarc).
    set (mk := fun r m nl rc e => mk_iter (zl:=zl) r off kn m nl 0 rc PYield false e).
    assert (N1 : iter_next fuel he o (mk_iter r off known None None 0 None PStart false false)
                 = (Ok (Some rc), mk s1 None None (Some rc) false)).
    { unfold iter_next. cbn [it_phase]. match goal with |- context[iter_loop ?a ?b ?c ?n ?i] => replace (iter_loop a b c n i) with (iter_loop a b c (Datatypes.S f') i) by now rewrite <- Ef end. cbn [iter_loop]. unfold next_record. cbn [it_next_line it_known it_reader]. rewrite P1. reflexivity. }
    set (it4 := mk_iter (zl:=zl) s4 T kn (Some (off, T - off)) None 0 (Some (rc_set_stream (RSbase s4) rc)) PYield false false).
    assert (U1 : user_ops fuel [URead None] (mk s1 None None (Some rc) false)
                 = ([Ok d], mk s2 None None (Some (rc_set_stream (RSbase s2) rc)) false)).
    { unfold mk. cbn [user_ops user_op it_record rc rc_stream rs_read]. unfold rc at 1. cbn [rc_stream rs_read]. rewrite E2. reflexivity. }
    assert (G1 : get_offset_length fuel (mk s2 None None (Some (rc_set_stream (RSbase s2) rc)) false) = (Ok (Some (off, T - off)), it4)).
    { unfold get_offset_length, read_to_end, mk. cbn [it_record it_member rc_set_stream rc_stream]. replace (drain (zl:=zl) fuel fuel (RSbase s2)) with (drain (zl:=zl) fuel (Datatypes.S f') (RSbase s2)) by now rewrite <- Ef. rewrite Dr.
      unfold it_set_rstream. cbn [it_reader rs_base]. replace (consume_loop (zl:=zl) fuel fuel true 0 0 s3) with (consume_loop (zl:=zl) fuel (Datatypes.S f') true 0 0 s3) by now rewrite <- Ef. rewrite Cn.
      unfold it_set_reader. cbn [it_reader it_offset it_known it_member it_next_line it_err_count it_record it_phase it_raise_gz it_empty rs_set_base rc_set_stream rc_stream].
      rewrite Hd4. unfold it4. replace (rw_pos (br_stream s4) - rem_length s4) with T by lia. rewrite !Z.sub_0_r. reflexivity. }
    assert (N2 : exists it', iter_next fuel he o it4 = (Ok None, it')).
    { eexists. unfold iter_next, it4. cbn [it_phase]. unfold after_record, read_to_end. cbn [it_record it_member it_reader it_empty]. rewrite Hd4.
      match goal with |- context[iter_loop ?a ?b ?c ?n ?i] => replace (iter_loop a b c n i) with (iter_loop a b c (Datatypes.S f') i) by now rewrite <- Ef end. cbn [iter_loop]. unfold next_record. cbn [it_next_line it_known it_reader]. rewrite P2.
      unfold after_record, read_to_end, set_empty, it_set_reader. cbn [it_record it_member it_reader it_empty]. rewrite Hd5. reflexivity. }
    destruct N2 as (it' & N2).
    eexists (mk_obs rc [Ok d] (Ok (Some (off, T - off))) _). split.
    - intros n. cbn [run_iter]. rewrite N1, U1, G1, N2. reflexivity.
    - cbn. repeat split. do 3 f_equal. unfold off. lia.
  Qed.
End Blank.

(** white space bytes decode to white space *)
Lemma bspace_utf8 l : forallb is_bspace l = true -> utf8_decode l = Some l.
Proof.
  induction l as [|b t IH]; intros H; [reflexivity|]. cbn [forallb] in H. apply andb_true_iff in H as [Hb Ht].
  cbn [utf8_decode]. rewrite (IH Ht). unfold is_bspace in Hb. replace (b <? 128)%N with true by lia. reflexivity.
Qed.
Lemma bspace_strip l : forallb is_bspace l = true -> urstrip (decode_header l) = [].
Proof.
  intros H. unfold decode_header. rewrite (bspace_utf8 l H). apply rstripp_all.
  rewrite forallb_forall in H |- *. intros c Hc. apply H in Hc. unfold is_bspace in Hc. unfold is_uspace. lia.
Qed.

(** a file that begins with a blank line *)
Lemma swallow_file {zl : zenv} fuel he o l d sched block known :
  gz_magic zl -> first_two block sched -> enough fuel (l ++ d) -> is_line l -> forallb is_bspace l = true -> 2 <= lenZ (l ++ d) -> known <> Some FArc -> lo_ensure o = false ->
  exists ob, (forall n, run_iter (zl:=zl) fuel he o (Datatypes.S (Datatypes.S n)) (fun _ => [URead None]) 0 (iter_new (raw_open (l ++ d) sched) block known) = ([ob], EndStop))
      /\ rc_type (ob_record ob) = None /\ sh_headers (rc_headers (ob_record ob)) = [] /\ rc_http (ob_record ob) = None
      /\ ob_reads ob = [Ok d] /\ ob_info ob = Ok (Some (0, lenZ (l ++ d))).
Proof.
  intros Hz [Hb Hs] Hfu Hl Hbl H2 Hk Hen. set (data := l ++ d) in *. set (f := raw_open data sched). set (T := lenZ data).
  pose (R := raw_R T fuel). pose proof (raw_delivers T fuel) as HD.
  assert (HR : R f data) by (unfold R, raw_R, f, T; cbn; repeat split; exact Hfu).
  assert (Hd : exists a b t, data = a :: b :: t /\ (a, b) <> (31%N, 139%N)).
  { destruct l as [|a l']. { destruct Hl as ([|] & _ & X); discriminate X. }
    cbn [forallb] in Hbl. apply andb_true_iff in Hbl as [Ha _]. unfold data in *. cbn [app] in *.
    destruct (l' ++ d) as [|b t]; [rewrite lenZ_cons, lenZ_nil in H2; lia|].
    exists a, b, t. split; [reflexivity|]. intros X. injection X as -> ->. discriminate Ha. }
  assert (Hfirst : forall x s', o_read raw_ops (Some block) f = (Ok x, s') -> data = [] \/ 2 <= lenZ x).
  { intros x s' E. right. destruct Hd as (a & b & t & Ed & _).
    unfold raw_ops, o_read, raw_read, f, raw_open in E. cbn [rw_rest rw_sched rw_pos] in E. assert (Hb1 : (0 <? block) = true) by (apply Z.ltb_lt; lia). rewrite Hb1 in E.
    rewrite Ed in E.
    assert (G : forall m, 2 <= m -> 2 <= lenZ (takeZ m (a :: b :: t))).
    { intros m Hm. rewrite lenZ_takeZ by lia. rewrite !lenZ_cons. pose proof (lenZ_nonneg t). lia. }
    destruct sched as [|k sc]; injection E as <- <-; apply G; lia. }
  pose proof (plainQ_open (zl:=zl) fuel 0 R f data block HD HR Hz Hb (or_introl Z.le_0_1) Hfu (or_intror Hd) Hfirst) as HQ.
  fold T in HQ. pose proof (plainQ_ok (zl:=zl) fuel 0 T T R HD (fun s c H => H)) as FO.
  assert (HF : forall s c, plainQ (zl:=zl) fuel 0 T R s c -> (List.length c + 3 <= fuel)%nat) by exact (fo_fuel _ _ _ _ FO).
  assert (HA : exact_full_read (rops (zl:=zl) fuel) (plainQ (zl:=zl) fuel 0 T R)).
  { intros s c Hsc. destruct (br_read_ok raw_ops fuel _ _ FO None s c Hsc I) as (s' & E & HQ'). exists s'. cbn [read_of] in E, HQ'.
    rewrite dropZ_all in HQ' by lia. split; [exact E|exact HQ']. }
  assert (H0 : 0 < T) by (unfold T; lia).
  destruct (swallow (zl:=zl) fuel he o (plainQ fuel 0 T R) T T (br_full_line raw_ops fuel _ _ FO) (br_exact_read raw_ops fuel _ _ FO) HF
    (plainQ_pos (zl:=zl) fuel 0 T T R HD (fun s c H => H)) (plainQ_dec (zl:=zl) fuel 0 T T R (fun s c H => H)) HA
    (dbr_new f block None false) known l d HQ Hl (bspace_strip l Hbl) Hk Hen H0 (Z.le_refl T)) as (ob & E & H).
  fold data in E, H. fold T in E, H. rewrite Z.sub_diag in E, H. exists ob. split; [exact E|exact H].
Qed.
