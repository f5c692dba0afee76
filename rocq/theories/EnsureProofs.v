(** * EnsureProofs: iterations that differ in ensure_http_headers only *)
From Coq Require Import String List ZArith NArith Bool Lia.
From Coq Require Import ZifyBool ZifyNat ZifyN.
From Verif Require Import PyBase Codecs Headers Streams StreamSpec DigestSpec Loader Iterator KeepProofs IterSpec TermLoad Cli CliSpec ReportSpec ModeSpec TwoRuns.
Import ListNotations.
Open Scope Z_scope.

Lemma has_http_b http : has_http http <-> osah_bool http = true.
Proof.
  unfold has_http, osah_bool. destruct http as [h|]; [|split; [intros (? & ? & _); discriminate|discriminate]].
  unfold sah_bool. split.
  - intros (h' & [= <-] & H). destruct (sh_status h), (sh_headers h); cbn; try reflexivity. destruct H; congruence.
  - intros H. exists h. split; [reflexivity|]. destruct (sh_status h), (sh_headers h); cbn in H; try discriminate; [right|left|left]; discriminate.
Qed.
Lemma ensured_http len ct http : (forall n, len = Some n -> 0 <= n) ->
  let http' := if negb (osah_bool http) && true then Some (default_http_headers len ct) else http in
  (has_http http -> http' = http) /\ (~ has_http http -> exists h, http' = Some h /\ default_http ct len h).
Proof.
  intros Hl. cbn zeta. rewrite has_http_b. destruct (osah_bool http); cbn [negb andb]; (split; [intros H|intros H]); try reflexivity; try congruence.
  eexists. split; [reflexivity|]. unfold default_http, default_http_headers, sah_new. cbn [sh_proto sh_status sh_headers]. split; [reflexivity|]. split; [reflexivity|].
  destruct len as [n|].
  - specialize (Hl n eq_refl). replace (0 <=? n) with true by lia. destruct ct as [[|x t]|]; reflexivity.
  - destruct ct as [[|x t]|]; reflexivity.
Qed.
Lemma eff_nonneg l sub n : eff_length l sub = Some n -> 0 <= n.
Proof.
  unfold eff_length. destruct l as [l|]; [|discriminate]. destruct (py_int l) as [z|]; [|intros H; injection H as <-; lia].
  destruct (z - sub <? 0) eqn:E; intros H; injection H as <-; lia.
Qed.

Section Ensure.
  Context {zl : zenv} (fuel : nat) (he : henv) (o : lopts).
  Notation rdr := (breader zl raw).
  Notation rst := (rstream rdr).
  Notation rops := (rops (zl:=zl) fuel).
  Definition no_exn (_ : exn) : Prop := False.
  Definition no_state (_ : rst) : Prop := False.

  Lemma ensure_parse sl known s :
    let x := parse_record_stream rops fuel he (with_ensure false o) sl known s in
    let y := parse_record_stream rops fuel he (with_ensure true o) sl known s in
    snd x = snd y /\ match fst x, fst y with Ok a, Ok b => recR eq ensured a b | Err e, Err e' => e = e' | _, _ => False end.
  Proof.
    unfold parse_record_stream, with_ensure. cbn [lo_a2w lo_uuid lo_check lo_norec lo_verify lo_ensure].
    destruct (detect_type rops fuel (lo_a2w o) (lo_uuid o) sl known s) as [[[arc h]|e] s1]; [|now split].
    destruct (if arc && negb (lo_a2w o) then _ else _) as [[[[[t uri] h'] len] ct] sub]. cbn zeta.
    pose proof (eff_nonneg len sub) as HL. set (L := eff_length len sub) in *.
    destruct (match L with Some n => if ckind_bool (lo_check o) then _ else _ | None => Ok (RSbase s1) end) as [a|e1]; [|now split].
    destruct (if lo_norec o then _ else _) as [[http|e] st]; [|now split].
    set (plen := match L with Some n => _ | None => -1 end).
    rewrite andb_false_r. pose proof (ensured_http L ct http HL) as HE. cbn zeta in HE.
    set (http' := if negb (osah_bool http) && true then _ else http) in *. clearbody http'.
    destruct (match st with RSdig d => _ | _ => _ end) as [[u|e] st']; [|now split].
    split; [reflexivity|]. cbn [fst]. split; [|split; [reflexivity|split; reflexivity]].
    repeat (split; [reflexivity|]). exact HE.
  Qed.

  Lemma ensure_run n prog j0 file block known :
    let x := run_iter fuel he (with_ensure false o) n prog j0 (iter_new (zl:=zl) file block known) in
    let y := run_iter fuel he (with_ensure true o) n prog j0 (iter_new (zl:=zl) file block known) in
    Forall2 (obs_rel ensured eq) (fst x) (fst y) /\ snd x = snd y.
  Proof.
    cbn zeta.
    destruct (run_two fuel he (with_ensure false o) (with_ensure true o) no_exn eq no_state eq (fun _ => True) False ensured)
      with (n := n) (prog := prog) (k := j0) (a := iter_new (zl:=zl) file block known) (b := iter_new (zl:=zl) file block known) as (j & J1 & J2).
    - intros m a b <-. left. now split.
    - intros m a b <-. left. now split.
    - intros ? ? [].
    - intros ? ? [].
    - intros ? ? [].
    - intros a b <-. reflexivity.
    - intros c a b <-. reflexivity.
    - intros a b <-. reflexivity.
    - intros ? [].
    - intros sl kn s. left. apply ensure_parse.
    - intros [].
    - reflexivity.
    - intros a b s t H. exact H.
    - intros a b H. apply H.
    - repeat split.
    - destruct J2 as [(J2 & J3 & J4)|[(e & [] & _) _]]. split; [|exact J4].
      rewrite J2 in J1 at 1. rewrite J3 in J1. now rewrite !firstn_all in J1.
  Qed.
End Ensure.
