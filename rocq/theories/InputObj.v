(** * Untrusted input: the handlers of LCIO *)

From Verif Require Import Bytes StrMap SioModel SioProofs Ieee ObjModel EventModel InputSpec InputProofs.

Section Safe.
Context (C : Prop) (B : bytes).
Context (srt : forall A : Type, (A -> Z) -> list A -> list A).

Local Notation ok m := (sf C B m (fun _ => True)).

Lemma sf_loop {A} n (m : RD A) : ok m -> ok (r_loop n m).
Proof. apply sf_repeat. Qed.
Lemma sf_sized {A} n (m : RD A) : ok m -> ok (r_sized n m).
Proof. intros H. unfold r_sized. destruct (n <? 0); [apply sf_throw|apply sf_loop; exact H]. Qed.
Lemma sf_when {A} b (m : RD A) d : ok m -> ok (r_when b m d).
Proof. intros H. unfold r_when. destruct b; [exact H|apply sf_ret; exact Logic.I]. Qed.
Lemma sf_ptr : ok r_pointer_to.
Proof. exact (sf_u32' C B). Qed.
Lemma sf_iarr n : 0 <= 4 * n < 4294967293 -> ok (r_iarr n).
Proof. intros H. eapply sf_bind; [apply sf_arr; exact H|]. intros. apply sf_ret. exact Logic.I. Qed.
Lemma sf_iarr_c n : (4294967293 <= 4 * n -> C) -> 0 <= n -> ok (r_iarr n).
Proof. intros H H0. eapply sf_bind; [apply sf_arr_c; auto|]. intros. apply sf_ret. exact Logic.I. Qed.
Lemma sf_try {A} (m : RD A) Q : sf C B m Q -> sf C B (r_try m) Q.
Proof. intros H d E0 E1. unfold r_try. specialize (H d E0 E1). destruct (m d) as [[a d']| |]; auto. Qed.

(** one step of a handler *)
Ltac sfp :=
  first
  [ apply sf_i32' | apply sf_u32' | apply sf_f32 | apply sf_f64 | apply sf_i64 | apply sf_i16 | apply sf_u8
  | apply sf_ptr | apply sf_string | apply sf_pointed_at | apply sf_new | apply sf_throw
  | apply sf_arr; cbn; lia | apply sf_iarr; lia
  | apply sf_ret; exact Logic.I
  | apply sf_sized; sfp | apply sf_loop; sfp | apply sf_repeat; sfp | apply sf_when; sfp | apply sf_try; sfp
  | eassumption
  | eapply sf_bind; [sfp | cbn beta; intros ? _; sfp] ].

Lemma sf_map {V} (rv : RD V) m0 : ok rv -> ok (r_map rv m0).
Proof. intros H. unfold r_map. sfp. Qed.
Lemma sf_params p : ok (r_params p).
Proof.
  unfold r_params. eapply sf_bind; [apply sf_map; sfp|intros ? _].
  eapply sf_bind; [apply sf_map; sfp|intros ? _]. eapply sf_bind; [apply sf_map; sfp|intros ? _]. sfp.
Qed.
Lemma sf_mcp v a : sf C B (read_mcp v a) (fun o => mc_daughters o = []).
Proof.
  unfold read_mcp. repeat (eapply sf_bind; [sfp|intros ? _]). apply sf_ret. reflexivity.
Qed.
Lemma sf_simcalhit v f a : ok (read_simcalhit v f a).
Proof.
  unfold read_simcalhit. assert (ok (read_cont v f)) by (unfold read_cont; sfp). sfp.
Qed.
Lemma sf_rawcalhit v f a : ok (read_rawcalhit v f a).
Proof. unfold read_rawcalhit. sfp. Qed.
Lemma sf_calhit v f a : ok (read_calhit v f a).
Proof. unfold read_calhit. sfp. Qed.
Lemma sf_simtrkhit v f a : ok (read_simtrkhit v f a).
Proof. unfold read_simtrkhit. sfp. Qed.
Lemma sf_trkpulse v f a : ok (read_trkpulse v f a).
Proof. unfold read_trkpulse. sfp. Qed.
Lemma sf_trkhit v f a : ok (read_trkhit v f a).
Proof. unfold read_trkhit. sfp. Qed.
Lemma sf_trkhitp v f a : ok (read_trkhitp v f a).
Proof. unfold read_trkhitp. sfp. Qed.
Lemma sf_trkhitz v f a : ok (read_trkhitz v f a).
Proof. unfold read_trkhitz. sfp. Qed.
Lemma sf_tstates v n : forall l, ok (read_tstates v n l).
Proof.
  assert (T : ok (read_tstate v)) by (unfold read_tstate; sfp).
  induction n as [|n IH]; intros l; cbn [read_tstates]; [sfp|].
  eapply sf_bind; [exact T|intros t _]. unfold add_track_state.
  destruct (negb (ts_loc t =? 0) && match get_track_state l (ts_loc t) with Some _ => true | None => false end);
    [sfp|apply IH].
Qed.
Lemma sf_track v f a : ok (read_track v f a).
Proof.
  unfold read_track. pose proof (sf_tstates v) as T.
  eapply sf_bind; [sfp|intros ? _]. eapply sf_bind; [sfp|intros ? _].
  eapply sf_bind; [apply T|intros ? _]. sfp.
Qed.
Lemma sf_lcrel f : ok (read_lcrel f).
Proof. unfold read_lcrel. sfp. Qed.
Lemma sf_vertex i a : ok (read_vertex i a).
Proof. unfold read_vertex. sfp. Qed.
Lemma sf_lcvec {V} (rv : RD V) v a : ok rv -> ok (read_lcvec rv v a).
Proof. intros H. unfold read_lcvec. sfp. Qed.
Lemma sf_pid : ok read_pid.
Proof. unfold read_pid. sfp. Qed.
Lemma sf_dummy n : C -> ok (r_dummy n).
Proof.
  intros H. unfold r_dummy. eapply sf_bind; [apply sf_data_c; [auto|apply Z.mod_pos_bound; reflexivity]|intros ? _].
  destruct (1 <? n); [|sfp]. intros d E0 E1. exact H.
Qed.
Lemma sf_recp v a : (vgt v 1 2 = false -> C) -> ok (read_recp srt v a).
Proof.
  intros H. unfold read_recp. pose proof sf_pid as P.
  assert (ok read_rpid) by (unfold read_rpid; sfp).
  destruct (vgt v 1 2) eqn:V; [sfp|].
  unfold read_old_recp. specialize (H eq_refl). pose proof (fun n => sf_dummy n H) as D.
  assert (ok read_old_pid) by (unfold read_old_pid; sfp).
  assert (ok read_old_ptrs) by (unfold read_old_ptrs; sfp).
  do 12 (eapply sf_bind; [sfp|intros ? _]).
  eapply sf_bind; [sfp|intros ? _]. eapply sf_bind; [apply D|intros ? _]. eapply sf_bind; [apply D|intros ? _]. sfp.
Qed.

(** the objects with arrays of stored length *)
Lemma sf_vec size old : (overlong (Z.of_nat size) B -> C) -> ok (r_vec size old).
Proof.
  intros H. unfold r_vec. eapply sf_bind; [apply sf_i32|]. cbn. intros n W.
  destruct (Z.ltb_spec 0 n); [|sfp]. destruct W as [W (p & F)]; [lia|].
  apply sf_arr_c; [|lia]. intros G. apply H. exists p, n. auto.
Qed.
Lemma sf_trkraw f a : (overlong 2 B -> C) -> ok (read_trkraw f a).
Proof. intros H. pose proof (sf_vec 2 [] H). unfold read_trkraw. sfp. Qed.
Lemma sf_trkdata f a : (overlong 4 B -> C) -> ok (read_trkdata f a).
Proof. intros H. pose proof (sf_vec 4 [] H). unfold read_trkdata. sfp. Qed.
Lemma sf_tpchit v f a : (overlong 4 B -> C) -> ok (read_tpchit v f a).
Proof.
  intros H. unfold read_tpchit.
  assert (ok (let* n := r_i32 in if n <? 0 then rthrow StdLengthError else r_iarr n)).
  { eapply sf_bind; [apply sf_i32|]. cbn. intros n W. destruct (Z.ltb_spec n 0); [sfp|].
    destruct W as [W (p & F)]; [lia|]. apply sf_iarr_c; [|lia]. intros G. apply H. exists p, n. auto. }
  sfp.
Qed.
Lemma sf_cluster v f a : (overlong 4 B -> C) -> ok (read_cluster srt v f a).
Proof.
  intros H. unfold read_cluster. pose proof sf_pid as P.
  do 8 (eapply sf_bind; [sfp|intros ? _]).
  eapply sf_bind with (Q := fun n => 0 <= n -> n < 2147483648 /\ (n = 6 \/ from B n)).
  { unfold r_when. destruct (vgt v 1 2); [|apply sf_ret; lia]. eapply sf_weak; [apply sf_i32|].
    cbn. intros n W Hn. destruct (W Hn). auto. }
  intros n W.
  eapply sf_bind with (Q := fun _ => True).
  { unfold r_sized_arr. destruct (Z.ltb_spec n 0); [sfp|]. destruct W as [W [F|(p & F)]]; [lia| |].
    - subst n. sfp.
    - apply sf_arr_c; [|lia]. intros G. apply H. exists p, n. auto. }
  intros ? _.
  eapply sf_bind with (Q := fun _ => True).
  { destruct (vgt v 1 2); sfp. }
  intros ? _. sfp.
Qed.
(** the sizes of generic objects: counts that come from the contents *)
Definition sizes_from (s : Z * Z * Z) : Prop :=
  let '(ni, nf, nd) := s in
  (0 <= ni -> ni < 2147483648 /\ from B ni) /\ (0 <= nf -> nf < 2147483648 /\ from B nf) /\
  (0 <= nd -> nd < 2147483648 /\ from B nd).
Lemma sf_sizes : sf C B r_sizes sizes_from.
Proof.
  unfold r_sizes. eapply sf_bind; [apply sf_i32|intros x Hx]. eapply sf_bind; [apply sf_i32|intros y Hy].
  eapply sf_bind; [apply sf_i32|intros z Hz]. apply sf_ret. cbn. auto.
Qed.
Lemma sf_genobj s a : (overlong 8 B -> C) -> (forall x, s = Some x -> sizes_from x) -> ok (read_genobj s a).
Proof.
  intros H HS. unfold read_genobj.
  assert (O : forall k n, 0 <= k <= 8 -> 0 <= n -> n < 2147483648 /\ from B n -> 4294967293 <= k * n -> C).
  { intros k n Hk Hn [L (p & F)] G. apply H. exists p, n. repeat split; auto. nia. }
  eapply sf_bind with (Q := sizes_from).
  { destruct s as [x|]; [apply sf_ret; auto|apply sf_sizes]. }
  intros [[ni nf] nd] (F1 & F2 & F3).
  destruct (Z.ltb_spec ni 0); [apply sf_throw|]. destruct (Z.ltb_spec nf 0); [apply sf_throw|].
  destruct (Z.ltb_spec nd 0); [apply sf_throw|]. cbn [orb].
  eapply sf_bind; [apply sf_iarr_c; [intros; eapply (O 4 ni); auto; lia|lia]|intros ? _].
  eapply sf_bind; [apply sf_arr_c; [intros; eapply (O 4 nf); auto; lia|lia]|intros ? _].
  eapply sf_bind; [apply sf_arr_c; [intros; eapply (O 8 nd); auto; lia|lia]|intros ? _].
  sfp.
Qed.

(** ** Collections *)

(** the size of the elements of the arrays of a class *)
Definition size_of (ty : otype) : option Z :=
  match ty with TTPC | TTD | TCL => Some 4 | TTRD => Some 2 | TGO => Some 8 | _ => None end.

(** the new MCParticles have no daughters *)
Definition fresh_obj (ty : otype) (o : obj) : Prop :=
  match ty with TMC => exists x, o = OMC x /\ mc_daughters x = [] | _ => forall x, o <> OMC x end.

Lemma sf_obj ty v hs a :
  (forall z, size_of ty = Some z -> overlong z B -> C) -> (ty = TRP -> vgt v 1 2 = false -> C) ->
  (forall x, h_sizes hs = Some x -> sizes_from x) ->
  sf C B (read_obj srt ty v hs a) (fresh_obj ty).
Proof.
  intros H HV HS.
  destruct ty; cbn [read_obj fresh_obj];
    try (specialize (H _ eq_refl)); try (specialize (HV eq_refl));
    try (eapply sf_bind;
         [first [apply sf_simcalhit | apply sf_rawcalhit | apply sf_calhit | apply sf_simtrkhit | apply sf_tpchit; exact H
                | apply sf_trkraw; exact H | apply sf_trkdata; exact H | apply sf_trkpulse | apply sf_trkhit
                | apply sf_trkhitp | apply sf_trkhitz | apply sf_track | apply sf_cluster; exact H
                | apply sf_recp; exact HV | apply sf_lcrel | apply sf_vertex
                | apply sf_lcvec; sfp | apply sf_genobj; [exact H|exact HS]]
         |intros ? _; apply sf_ret; intros; discriminate]).
  eapply sf_bind; [apply sf_mcp|]. cbn. intros x Hx. apply sf_ret. exists x. auto.
Qed.

Lemma sf_init ty v : sf C B (init_reading ty v) (fun ph => forall x, h_sizes (snd ph) = Some x -> sizes_from x).
Proof.
  unfold init_reading. eapply sf_bind; [apply sf_u32'|intros f _].
  eapply sf_bind; [apply sf_when, sf_params|intros p _].
  destruct ty; try (apply sf_ret; cbn; intros; discriminate).
  eapply sf_bind with (Q := fun s => forall x, s = Some x -> sizes_from x).
  - destruct (bit_set f GOBIT_FIXED).
    + eapply sf_bind; [apply sf_sizes|]. intros s Hs. apply sf_ret. intros x E. congruence.
    + apply sf_ret. intros x E. discriminate.
  - intros s Hs. apply sf_ret. exact Hs.
Qed.
End Safe.

Lemma sf_repeat_all (C : Prop) B {A} n (m : RD A) Q : sf C B m Q -> sf C B (r_repeat n m) (Forall Q).
Proof.
  intros H. induction n as [|n IH]; cbn [r_repeat]; [apply sf_ret; constructor|].
  eapply sf_bind; [exact H|]. intros x Hx. eapply sf_bind; [exact IH|]. intros. apply sf_ret. constructor; auto.
Qed.

Lemma sf_coll (C : Prop) B srt ty v :
  (forall z, size_of ty = Some z -> overlong z B -> C) -> (ty = TRP -> vgt v 1 2 = false -> C) ->
  sf C B (read_coll srt ty v) (fun _ => True).
Proof.
  intros H HV. unfold read_coll. eapply sf_bind; [apply sf_init|]. intros [p hs] HS. cbn [snd] in HS.
  eapply sf_bind; [apply sf_i32'|intros n _]. destruct (n <? 0); [apply sf_throw|].
  destruct (bit_set (h_flag hs) BITSubset).
  - eapply sf_bind; [apply sf_loop, sf_ptr|]. intros. apply sf_ret. exact Logic.I.
  - eapply sf_bind; [apply sf_loop|intros; apply sf_ret; exact Logic.I].
    eapply sf_bind; [apply sf_new|intros a _].
    eapply sf_bind; [apply sf_try, sf_obj; auto|]. intros. apply sf_ret. exact Logic.I.
Qed.
