(** * Untrusted input: events *)

From Verif Require Import Bytes StrMap SioModel SioProofs Ieee ObjModel ObjSpec EventModel InputSpec InputProofs InputObj
  EventProofs.

(** ** Headers *)

Section Safe.
Context (C : Prop) (B : bytes).

Lemma sf_version v : sf C B (check_version v) (fun _ => True).
Proof. unfold check_version. destruct (_ && _); [apply sf_throw|apply sf_ret; exact Logic.I]. Qed.

Lemma sf_runhdr v : sf C B (read_runhdr v) (fun _ => True).
Proof.
  unfold read_runhdr. eapply sf_bind; [apply sf_version|intros ? _].
  eapply sf_bind; [apply sf_i32'|intros ? _]. eapply sf_bind; [apply sf_string|intros ? _].
  eapply sf_bind; [apply sf_string|intros ? _]. eapply sf_bind; [apply sf_i32'|intros ? _].
  eapply sf_bind; [apply sf_loop, sf_string|intros ? _].
  eapply sf_bind; [apply sf_when, sf_params|intros ? _]. apply sf_ret. exact Logic.I.
Qed.

(** the collections of a header are empty *)
Definition all_empty (cols : list (bytes * coll)) : Prop := forall nc, In nc cols -> c_elems (snd nc) = [].
Lemma sm_set_in {V} k (v : V) m e : In e (sm_set k v m) -> e = (k, v) \/ In e m.
Proof.
  induction m as [|[k' v'] m IH]; cbn; [intuition|].
  destruct (str_cmp k k'); cbn; intuition.
Qed.
Definition new_cols (cols : list (bytes * coll)) : Prop := all_empty cols /\ sm_ok cols.
Lemma sf_cols names : forall n cols, new_cols cols -> sf C B (read_cols n names cols) new_cols.
Proof.
  induction n as [|n IH]; intros cols H; cbn [read_cols]; [apply sf_ret; exact H|].
  eapply sf_bind with (Q := new_cols); [|intros cs Hc; apply IH; exact Hc].
  unfold read_col. eapply sf_bind; [apply sf_string|intros name _]. eapply sf_bind; [apply sf_string|intros ty _].
  destruct (selected names name); [|apply sf_ret; exact H].
  intros d E0 E1. unfold add_coll. destruct (negb (validate name)); [exact Logic.I|].
  destruct (sm_get name cols); [exact Logic.I|]. repeat split; auto; [lia| |].
  - intros nc Hi. apply sm_set_in in Hi. destruct Hi as [->|Hi]; [reflexivity|]. apply H, Hi.
  - apply sm_set_ok, H.
Qed.
Lemma sf_evhdr names v : sf C B (read_evhdr names v) (fun e => new_cols (ev_cols e)).
Proof.
  unfold read_evhdr. eapply sf_bind; [apply sf_version|intros ? _].
  do 2 (eapply sf_bind; [apply sf_i32'|intros ? _]). eapply sf_bind; [apply sf_i64|intros ? _].
  eapply sf_bind; [apply sf_string|intros ? _]. eapply sf_bind; [apply sf_i32'|intros ? _].
  eapply sf_bind; [apply sf_cols; split; [intros ? []|apply sm_ok_nil]|intros cs Hc].
  eapply sf_bind; [apply sf_when, sf_params|intros ? _]. apply sf_ret. exact Hc.
Qed.
End Safe.

(** a reader of blocks all of whose results fulfil [Q] *)
Lemma read_blocks_all {A} (blocks : list (rblock A)) buf (Q : A -> Prop) :
  (forall blk v B, In blk blocks -> sf True B (rb_read blk v) Q) ->
  forall fuel pos at_ next out at2 next2, 0 <= pos ->
  read_blocks_loop fuel buf blocks pos at_ next = Ok (out, at2, next2) -> Forall (fun x => Q (snd x)) out.
Proof.
  intros H. induction fuel as [|fuel IH]; intros pos at_ next out at2 next2 Hp; cbn [read_blocks_loop]; [discriminate|].
  destruct (Zlen buf <=? pos). { intros E. injection E as <- <- <-. constructor. }
  pose proof (extract_cause buf pos Hp) as X.
  destruct (extract_block buf pos) as [[info sp]|e|u]; cbn [bind]; [|discriminate|discriminate].
  destruct X as (len & nl & BA & Ee & Rl & Ll & Ps & Rh & NM). rewrite Ee.
  destruct (find_block (bi_name info) blocks) as [blk|] eqn:F; [|destruct (pos + len =? pos); [discriminate|apply IH; lia]].
  unfold r_seek. cbn [r_buf r_cur r_at r_next]. destruct (Zlen sp <? bi_hlen info); cbn [bind]; [discriminate|].
  apply find_some in F. destruct F as [F _].
  pose proof (H blk (bi_version info) sp F (mkR sp (bi_hlen info) at_ next) eq_refl Rh) as G.
  destruct (rb_read blk (bi_version info) (mkR sp (bi_hlen info) at_ next)) as [[a d']|e|u]; cbn [rethrow bind];
    [|destruct (is_sio e); discriminate|discriminate].
  destruct G as (_ & _ & _ & G).
  destruct (read_blocks_loop fuel buf blocks (pos + len) (r_at d') (r_next d')) as [[[rest a2] n2]|e|u] eqn:E;
    cbn [bind]; [|discriminate|discriminate].
  intros X. injection X as <- <- <-. constructor; [exact G|]. eapply IH; [|exact E]. lia.
Qed.

Lemma read_run_cause data k : read_run_record data = UB k ->
  (k = UBDiverge /\ zero_block data) \/ (k = UBOutOfBounds /\ long_name data).
Proof.
  unfold read_run_record. destruct (read_blocks data [mkRB run_block read_runhdr] 1) as [[[out a] n]|e|u] eqn:E;
    cbn [bind]; try discriminate.
  intros X. injection X as <-. apply read_blocks_cause in E. destruct E as [E|[E|E]]; auto. exfalso.
  destruct E as (blk & p & len & v & nl & d & [<-|[]] & _ & _ & Hc & R). cbn [rb_read] in R.
  pose proof (sf_runhdr False (r_buf d) v d eq_refl Hc) as S. rewrite R in S. exact S.
Qed.

Lemma read_header_cause names data k : read_header_record names data = UB k ->
  (k = UBDiverge /\ zero_block data) \/ (k = UBOutOfBounds /\ long_name data).
Proof.
  unfold read_header_record. destruct (read_blocks data [mkRB header_block (read_evhdr names)] 1) as [[[out a] n]|e|u] eqn:E;
    cbn [bind]; try discriminate.
  intros X. injection X as <-. apply read_blocks_cause in E. destruct E as [E|[E|E]]; auto. exfalso.
  destruct E as (blk & p & len & v & nl & d & [<-|[]] & _ & _ & Hc & R). cbn [rb_read] in R.
  pose proof (sf_evhdr False (r_buf d) names v d eq_refl Hc) as S. rewrite R in S. exact S.
Qed.

Lemma Forall_last {A} (P : A -> Prop) l d : Forall P l -> P d -> P (last l d).
Proof.
  intros H Hd. induction H as [|x l Hx H IH]; [exact Hd|]. destruct l; [exact Hx|]. exact IH.
Qed.

Lemma read_header_empty names data e : read_header_record names data = Ok e -> new_cols (ev_cols e).
Proof.
  unfold read_header_record. destruct (read_blocks data [mkRB header_block (read_evhdr names)] 1) as [[[out a] n]|x|u] eqn:E;
    cbn [bind]; try discriminate.
  intros X. injection X as <-. unfold read_blocks in E.
  apply (read_blocks_all _ _ (fun e => new_cols (ev_cols e))) in E; [| |lia].
  - apply Forall_last; [|split; [intros ? []|apply sm_ok_nil]]. rewrite Forall_map. exact E.
  - intros blk v B [<-|[]]. cbn [rb_read]. apply sf_evhdr.
Qed.

(** ** The collections of an event *)

Lemma handler_in t ty : get_handler t = Some ty -> In (t, ty) registry.
Proof.
  unfold get_handler. destruct (find (fun e => bytes_eqb t (fst e)) registry) as [[n y]|] eqn:F; [|discriminate].
  intros E. injection E as <-. apply find_some in F. destruct F as [F Q]. apply bytes_eqb_eq in Q. cbn in Q. subst n. exact F.
Qed.
Lemma handler_none t : get_handler t = None -> ~ In t known_types.
Proof.
  unfold get_handler. destruct (find (fun e => bytes_eqb t (fst e)) registry) as [[n y]|] eqn:F; [discriminate|].
  intros _ Hi. 
  assert (K : known_types = map fst registry) by (vm_compute; reflexivity).
  rewrite K in Hi. apply in_map_iff in Hi. destruct Hi as ([n y] & <- & Hi).
  apply (find_none _ _ F) in Hi. cbn [fst] in Hi. rewrite bytes_eqb_refl in Hi. discriminate.
Qed.
Lemma registry_size : Forall (fun e => forall z, size_of (snd e) = Some z -> In (fst e, z) array_types) registry.
Proof.
  unfold registry. repeat (apply Forall_cons || apply Forall_nil); cbn [fst snd size_of]; intros z E; try discriminate; injection E as <-;
    unfold array_types; cbn [map fst snd]; repeat (first [left; reflexivity | right]).
Qed.
Lemma registry_recp : Forall (fun e => snd e = TRP -> fst e = str "ReconstructedParticle") registry.
Proof. unfold registry. repeat (apply Forall_cons || apply Forall_nil); cbn [fst snd]; intros E; try discriminate; reflexivity. Qed.

Lemma vgt_false v a b : vgt v a b = false -> v <= a * 65536 + b.
Proof. unfold vgt, ver. lia. Qed.

Lemma event_blocks_cause srt cols data next k :
  read_blocks data (coll_handlers srt cols) next = UB k ->
  zero_block data \/ long_name data \/ bad_collection (map (fun nc => c_type (snd nc)) cols) data.
Proof.
  intros E. apply read_blocks_cause in E. destruct E as [[_ E]|[[_ E]|E]]; auto. right; right.
  destruct E as (blk & p & len & v & nl & d & Hi & BA & Ps & Hc & R).
  unfold coll_handlers in Hi. apply in_map_iff in Hi. destruct Hi as (nc & <- & Hi). cbn [rb_read] in R.
  exists (c_type (snd nc)). split; [apply in_map_iff; exists nc; auto|].
  destruct (get_handler (c_type (snd nc))) as [ty|] eqn:G; [|left; apply handler_none; exact G].
  apply handler_in in G. right.
  pose proof (sf_coll ((exists size, In (c_type (snd nc), size) array_types /\ overlong size data) \/
                       (c_type (snd nc) = str "ReconstructedParticle" /\ old_block data)) (r_buf d) srt ty v) as S.
  pose proof registry_size as RS. pose proof registry_recp as RP. rewrite Forall_forall in RS, RP.
  specialize (RS _ G). specialize (RP _ G). cbn [fst snd] in RS, RP.
  assert (S1 : forall z, size_of ty = Some z -> overlong z (r_buf d) ->
     (exists size, In (c_type (snd nc), size) array_types /\ overlong size data) \/
     (c_type (snd nc) = str "ReconstructedParticle" /\ old_block data)).
  { intros z Ez Ho. left. exists z. split; [apply RS; exact Ez|]. eapply overlong_part; eauto. }
  specialize (S S1).
  assert (S2 : ty = TRP -> vgt v 1 2 = false ->
     (exists size, In (c_type (snd nc), size) array_types /\ overlong size data) \/
     (c_type (snd nc) = str "ReconstructedParticle" /\ old_block data)).
  { intros Et Hv. right. split; [apply RP; exact Et|]. exists p, v. destruct BA. apply vgt_false in Hv. auto. }
  specialize (S S2 d eq_refl Hc). rewrite R in S. exact S.
Qed.

(** the blocks that were read stand at different places *)
Lemma blocks_placed {A} (blocks : list (rblock A)) buf : forall fuel pos at_ next out at2 next2, 0 <= pos ->
  read_blocks_loop fuel buf blocks pos at_ next = Ok (out, at2, next2) ->
  zero_block buf \/ exists ps, Forall2 (fun p x => block_named buf p (fst x)) ps out /\ NoDup ps /\ Forall (fun p => pos <= p) ps.
Proof.
  induction fuel as [|fuel IH]; intros pos at_ next out at2 next2 Hp; cbn [read_blocks_loop]; [discriminate|].
  destruct (Zlen buf <=? pos). { intros E. injection E as <- <- <-. right. exists []. repeat constructor. }
  pose proof (extract_cause buf pos Hp) as X.
  destruct (extract_block buf pos) as [[info sp]|e|u]; cbn [bind]; [|discriminate|discriminate].
  destruct X as (len & nl & BA & Ee & Rl & Ll & Ps & Rh & NM). rewrite Ee.
  assert (W : forall at1 n1 o, read_blocks_loop fuel buf blocks (pos + len) at1 n1 = Ok o ->
    zero_block buf \/ len <> 0 /\ exists ps, Forall2 (fun p x => block_named buf p (fst x)) ps (fst (fst o)) /\ NoDup ps /\ Forall (fun p => pos + len <= p) ps).
  { intros at1 n1 [[o a2] n2] E. destruct (Z.eq_dec len 0) as [Ez|Ez].
    - left. rewrite Ez in BA. eexists _, _, _. exact BA.
    - apply IH in E; [|lia]. destruct E as [E|E]; [left; exact E|right; split; [exact Ez|exact E]]. }
  destruct (find_block (bi_name info) blocks) as [blk|] eqn:F.
  2:{ destruct (pos + len =? pos); [discriminate|]. intros E. apply W in E.
      destruct E as [E|(_ & ps & E1 & E2 & E3)]; [left; exact E|right]. exists ps. split; [exact E1|]. split; [exact E2|].
      eapply Forall_impl; [|exact E3]. cbn beta. intros p G. lia. }
  unfold r_seek. cbn [r_buf r_cur r_at r_next]. destruct (Zlen sp <? bi_hlen info); cbn [bind]; [discriminate|].
  destruct (rethrow EIoFailure (rb_read blk (bi_version info) (mkR sp (bi_hlen info) at_ next))) as [[a d']|e|u]; cbn [bind]; [|discriminate|discriminate].
  destruct (read_blocks_loop fuel buf blocks (pos + len) (r_at d') (r_next d')) as [[[rest a2] n2]|e|u] eqn:E;
    cbn [bind]; [|discriminate|discriminate].
  intros X. injection X as <- <- <-. apply W in E. cbn [fst] in E.
  destruct E as [E|(Hz & ps & E1 & E2 & E3)]; [left; exact E|right]. exists (pos :: ps). split; [|split].
  - constructor; [exact NM|exact E1].
  - constructor; [|exact E2]. intros Hi. rewrite Forall_forall in E3. specialize (E3 _ Hi). lia.
  - constructor; [lia|]. eapply Forall_impl; [|exact E3]. cbn beta. intros p G. lia.
Qed.

Lemma repeats_find {A} (R : Z -> bytes -> Prop) : forall ps (out : list (bytes * A)),
  Forall2 (fun p x => R p (fst x)) ps out -> NoDup ps -> repeats (map fst out) = true ->
  exists p q n, p <> q /\ R p n /\ R q n.
Proof.
  induction 1 as [|p x ps out H F IH]; cbn [map repeats]; [discriminate|]. intros ND E. inversion ND as [|? ? Hn ND']; subst.
  apply orb_true_iff in E. destruct E as [E|E]; [|exact (IH ND' E)].
  apply existsb_exists in E. destruct E as (m & Hm & E). apply bytes_eqb_eq in E. subst m.
  apply in_map_iff in Hm. destruct Hm as (y & Ey & Hy).
  assert (G : exists q, In q ps /\ R q (fst y)).
  { clear - F Hy. induction F as [|q z qs zs Hq F IH]; [destruct Hy|]. destruct Hy as [->|Hy]; [exists q; split; [left; reflexivity|exact Hq]|].
    destruct (IH Hy) as (q' & I1 & I2). exists q'. split; [right; exact I1|exact I2]. }
  destruct G as (q & Hq & Rq). exists p, q, (fst x). split; [intros ->; contradiction|]. split; [exact H|]. rewrite <- Ey. exact Rq.
Qed.

Lemma event_record_cause srt data e next k : read_event_record srt data e next = UB k ->
  zero_block data \/ long_name data \/ repeated_block data \/ bad_collection (map (fun nc => c_type (snd nc)) (ev_cols e)) data.
Proof.
  unfold read_event_record. destruct (read_blocks data (coll_handlers srt (ev_cols e)) next) as [[[out a] n]|x|u] eqn:E;
    cbn [bind]; try discriminate.
  - destruct (repeats (map fst out)) eqn:Rp; [|discriminate]. intros _. unfold read_blocks in E. apply blocks_placed in E; [|lia].
    destruct E as [E|(ps & E1 & E2 & _)]; [left; exact E|]. right; right; left.
    exact (repeats_find (block_named data) _ _ E1 E2 Rp).
  - intros _. pose proof (event_blocks_cause _ _ _ _ _ E) as G. tauto.
Qed.

(** ** The objects just read *)

(** the addresses of objects are new and different *)
Definition fresh_range {V} (lo hi : Z) (l : list (Z * V)) : Prop :=
  Forall (fun ao => lo <= fst ao < hi) l /\ NoDup (map fst l).

Lemma fresh_app {V} lo mid hi (l l' : list (Z * V)) : lo <= mid <= hi ->
  fresh_range lo mid l -> fresh_range mid hi l' -> fresh_range lo hi (l ++ l').
Proof.
  intros R [F N] [F' N']. split.
  - apply Forall_app. split; eapply Forall_impl; [|exact F| |exact F']; cbn; lia.
  - rewrite map_app. induction l as [|x l IH]; [exact N'|]. cbn [map app] in *. inversion N; subst. inversion F; subst.
    constructor; [|apply IH; assumption]. rewrite in_app_iff. intros [G|G]; [contradiction|].
    apply in_map_iff in G. destruct G as (y & Ey & G). rewrite Forall_forall in F'. specialize (F' _ G). cbn in *. lia.
Qed.

(** a collection just read: the elements of a collection that is not a subset are its objects *)
Definition coll_fresh (ty : otype) (lo hi : Z) (rc : rcoll) : Prop :=
  fresh_range lo hi (rc_objs rc) /\ Forall (fun ao => fresh_obj ty (snd ao)) (rc_objs rc) /\
  (bit_set (rc_flag rc) BITSubset = false -> rc_elems rc = map fst (rc_objs rc)).

Lemma objs_loop srt ty v hs B n : forall d l d', r_buf d = B -> 0 <= r_cur d ->
  (forall x, h_sizes hs = Some x -> sizes_from B x) ->
  r_repeat n (let* na := r_new in let* o := r_try (read_obj srt ty v hs na) in rret (na, o)) d = Ok (l, d') ->
  fresh_range (r_next d) (r_next d') l /\ Forall (fun ao => fresh_obj ty (snd ao)) l /\ r_next d <= r_next d'.
Proof.
  induction n as [|n IH]; intros d l d' E0 E1 HS; cbn [r_repeat].
  { intros E. injection E as <- <-. repeat split; try constructor. lia. }
  unfold rbind at 1. unfold rbind at 1. cbn [r_new]. unfold r_new at 1. unfold rbind at 1.
  set (d1 := mkR (r_buf d) (r_cur d) (r_at d) (r_next d + 1)).
  pose proof (sf_try True B _ _ (sf_obj True B srt ty v hs (r_next d) (fun _ _ _ => Logic.I) (fun _ _ => Logic.I) HS)) as S.
  specialize (S d1 E0 E1). destruct (r_try (read_obj srt ty v hs (r_next d)) d1) as [[o d2]|e|u]; [|discriminate|discriminate].
  destruct S as (S1 & S2 & S3 & S4). cbn [rret]. unfold rret at 1. unfold rbind at 1.
  match goal with |- context [r_repeat n ?m d2] => destruct (r_repeat n m d2) as [[l2 d3]|e|u] eqn:R end;
    [|discriminate|discriminate].
  intros E. cbn in E. injection E as <- <-. destruct (IH d2 l2 d3 S1 S2 HS R) as ([F N] & G & L).
  unfold d1 in S3. cbn [r_next] in S3. repeat split.
  - constructor; [cbn; lia|]. eapply Forall_impl; [|exact F]. cbn. lia.
  - cbn [map fst]. constructor; [|exact N]. intros Hi. apply in_map_iff in Hi. destruct Hi as (y & Ey & Hi).
    rewrite Forall_forall in F. specialize (F _ Hi). lia.
  - constructor; [exact S4|exact G].
  - lia.
Qed.

Lemma read_coll_fresh srt ty v d rc d' : 0 <= r_cur d -> read_coll srt ty v d = Ok (rc, d') ->
  coll_fresh ty (r_next d) (r_next d') rc /\ r_next d <= r_next d'.
Proof.
  intros E1. unfold read_coll. unfold rbind at 1.
  pose proof (sf_init True (r_buf d) ty v d eq_refl E1) as S.
  destruct (init_reading ty v d) as [[[p hs] d1]|e|u]; [|discriminate|discriminate].
  destruct S as (S1 & S2 & S3 & HS). cbn [snd] in HS.
  unfold rbind at 1. pose proof (sf_i32' True (r_buf d) d1 S1 S2) as S4.
  destruct (r_i32 d1) as [[n d2]|e|u]; [|discriminate|discriminate]. destruct S4 as (S4 & S5 & S6 & _).
  destruct (n <? 0); [discriminate|].
  destruct (bit_set (h_flag hs) BITSubset) eqn:Bs.
  - unfold rbind at 1. pose proof (sf_loop True (r_buf d) n r_pointer_to (sf_ptr _ _) d2 S4 S5) as S7.
    destruct (r_loop n r_pointer_to d2) as [[l d3]|e|u]; [|discriminate|discriminate]. destruct S7 as (S7 & S8 & S9 & _).
    intros E. cbn in E. injection E as <- <-. split; [|lia]. split; [|split].
    + split; constructor.
    + constructor.
    + cbn [rc_flag]. congruence.
  - unfold rbind at 1. unfold r_loop.
    match goal with |- context [r_repeat ?k ?m d2] => destruct (r_repeat k m d2) as [[l d3]|e|u] eqn:R end;
      [|discriminate|discriminate].
    apply (objs_loop srt ty v hs (r_buf d)) in R; auto. destruct R as ([F N] & G & L).
    intros E. cbn in E. injection E as <- <-. split; [|lia]. split; [|split].
    + cbn [rc_objs]. split; [|exact N]. eapply Forall_impl; [|exact F]. cbn. lia.
    + exact G.
    + reflexivity.
Qed.

(** the blocks of an event record *)
Definition out_fresh (cols : list (bytes * coll)) (lo hi : Z) (out : list (bytes * rcoll)) : Prop :=
  fresh_range lo hi (flat_map (fun x => rc_objs (snd x)) out) /\
  Forall (fun x => exists c ty, In (fst x, c) cols /\ get_handler (c_type c) = Some ty /\
            Forall (fun ao => fresh_obj ty (snd ao)) (rc_objs (snd x)) /\
            (bit_set (rc_flag (snd x)) BITSubset = false -> rc_elems (snd x) = map fst (rc_objs (snd x)))) out.

Lemma blocks_fresh srt cols buf : forall fuel pos at_ next out at2 next2, 0 <= pos ->
  read_blocks_loop fuel buf (coll_handlers srt cols) pos at_ next = Ok (out, at2, next2) ->
  out_fresh cols next next2 out /\ next <= next2.
Proof.
  induction fuel as [|fuel IH]; intros pos at_ next out at2 next2 Hp; cbn [read_blocks_loop]; [discriminate|].
  destruct (Zlen buf <=? pos).
  { intros E. injection E as <- <- <-. split; [|lia]. split; [split|]; constructor. }
  pose proof (extract_cause buf pos Hp) as X.
  destruct (extract_block buf pos) as [[info sp]|e|u]; cbn [bind]; [|discriminate|discriminate].
  destruct X as (len & nl & BA & Ee & Rl & Ll & Ps & Rh & NM). rewrite Ee.
  destruct (find_block (bi_name info) (coll_handlers srt cols)) as [blk|] eqn:F; [|destruct (pos + len =? pos); [discriminate|apply IH; lia]].
  unfold r_seek. cbn [r_buf r_cur r_at r_next]. destruct (Zlen sp <? bi_hlen info); cbn [bind]; [discriminate|].
  apply find_some in F. destruct F as [F En]. apply bytes_eqb_eq in En. unfold coll_handlers in F. apply in_map_iff in F.
  destruct F as ([n c] & <- & Hi). cbn [rb_read rb_name fst snd] in *.
  destruct (get_handler (c_type c)) as [ty|] eqn:G; [|cbn; discriminate].
  destruct (read_coll srt ty (bi_version info) (mkR sp (bi_hlen info) at_ next)) as [[a d']|e|u] eqn:R; cbn [rethrow bind];
    [|destruct (is_sio e); discriminate|discriminate].
  apply read_coll_fresh in R; [|exact Rh]. cbn [r_next] in R. destruct R as ((R1 & R2 & R3) & R4).
  destruct (read_blocks_loop fuel buf (coll_handlers srt cols) (pos + len) (r_at d') (r_next d')) as [[[rest a2] n2]|e|u] eqn:E;
    cbn [bind]; [|discriminate|discriminate].
  intros X. injection X as <- <- <-. apply IH in E; [|lia]. destruct E as ((E1 & E2) & E3). split; [|lia]. split.
  - cbn [flat_map snd]. eapply fresh_app; [|exact R1|exact E1]. lia.
  - constructor; [|exact E2]. cbn [fst snd]. exists c, ty. rewrite <- En. auto.
Qed.

(** ** Post processing *)

Definition is_mc (h : heap) (a : addr) : Prop := a <> 0 /\ exists o, h a = Some (OMC o).
Definition sound (h : heap) : Prop := forall a o, h a = Some (OMC o) -> Forall (is_mc h) (mc_parents o ++ mc_daughters o).

Lemma mcp_at_mc h a : is_mc h a -> exists o, mcp_at h a = Ok o /\ h a = Some (OMC o).
Proof.
  intros [Hn [o Ho]]. exists o. unfold mcp_at. rewrite Ho. destruct (Z.eqb_spec a 0); [contradiction|auto].
Qed.
Lemma hupd_mc h a o b : is_mc h a -> is_mc h b -> is_mc (hupd h a (OMC o)) b.
Proof. intros Ha [Hn [x Hx]]. split; [exact Hn|]. unfold hupd. destruct (b =? a); eauto. Qed.
Lemma hupd_sound h a o o' : sound h -> is_mc h a -> h a = Some (OMC o) ->
  Forall (is_mc h) (mc_parents o' ++ mc_daughters o') -> sound (hupd h a (OMC o')).
Proof.
  intros S Ha Eo Hf b x. unfold hupd at 1. destruct (b =? a).
  - intros E. injection E as <-. eapply Forall_impl; [|exact Hf]. intros c. apply hupd_mc, Ha.
  - intros E. eapply Forall_impl; [|exact (S _ _ E)]. intros c. apply hupd_mc, Ha.
Qed.

Lemma push_each_ok f : (forall h o, Forall (is_mc h) (mc_parents o ++ mc_daughters o) -> (exists a, is_mc h a /\
     ((forall o, f o = add_daughter a o) \/ (forall o, f o = add_parent a o))) -> Forall (is_mc h) (mc_parents (f o) ++ mc_daughters (f o))).
Proof.
  intros h o H (a & Ha & [E|E]); rewrite E; unfold add_daughter, add_parent; cbn [mc_parents mc_daughters];
    rewrite Forall_app in *; destruct H as [H1 H2]; split; auto; rewrite Forall_app; auto.
Qed.

Lemma push_each_sound f a : (forall o, f o = add_daughter a o) \/ (forall o, f o = add_parent a o) ->
  forall l h, sound h -> is_mc h a -> Forall (is_mc h) l ->
  exists h', push_each f h l = Ok h' /\ sound h' /\ (forall b, is_mc h b -> is_mc h' b).
Proof.
  intros Hf. induction l as [|b l IH]; intros h S Ha Hl; cbn [push_each].
  { exists h. auto. }
  inversion Hl as [|? ? Hb Hl']; subst. destruct (mcp_at_mc h b Hb) as (o & -> & Eo). cbn [bind].
  set (h1 := hupd h b (OMC (f o))).
  assert (M : forall c, is_mc h c -> is_mc h1 c) by (intros c; apply hupd_mc, Hb).
  destruct (IH h1) as (h' & E & S' & M').
  - apply (hupd_sound h b o); auto. apply push_each_ok; eauto.
  - auto.
  - eapply Forall_impl; [|exact Hl']. exact M.
  - exists h'. auto.
Qed.

Lemma count_links_ok h l : Forall (is_mc h) l -> exists x, count_links h l = Ok x.
Proof.
  induction 1 as [|a l Ha Hl IH]; cbn [count_links]; [eauto|].
  destruct (mcp_at_mc h a Ha) as (o & -> & _). cbn [bind]. destruct IH as [[nd np] ->]. cbn [bind]. eauto.
Qed.

Lemma restore_elems_ok nd np : forall l h, sound h -> Forall (is_mc h) l ->
  exists h', restore_elems nd np h l = Ok h' /\ sound h' /\ (forall b, is_mc h b -> is_mc h' b).
Proof.
  induction l as [|a l IH]; intros h S Hl; cbn [restore_elems]; [exists h; auto|].
  inversion Hl as [|? ? Ha Hl']; subst. destruct (mcp_at_mc h a Ha) as (o & -> & Eo). cbn [bind].
  pose proof (S _ _ Eo) as F. rewrite Forall_app in F. destruct F as [Fp Fd].
  assert (X : exists h1, (if (np =? 0) && (0 <? nd) then push_each (add_parent a) h (mc_daughters o)
                else if (0 <? np) && (nd =? 0) then push_each (add_daughter a) h (mc_parents o)
                else Ok h) = Ok h1 /\ sound h1 /\ (forall b, is_mc h b -> is_mc h1 b)).
  { destruct ((np =? 0) && (0 <? nd)); [apply (push_each_sound _ a); auto|].
    destruct ((0 <? np) && (nd =? 0)); [apply (push_each_sound _ a); auto|]. exists h. auto. }
  destruct X as (h1 & -> & S1 & M1). cbn [bind].
  destruct (IH h1 S1) as (h' & -> & S' & M'). { eapply Forall_impl; [|exact Hl']. exact M1. }
  exists h'. auto.
Qed.

Definition is_mc_coll (c : coll) : bool := bytes_eqb (c_type c) (str "MCParticle") && negb (bit_set (c_flag c) BITSubset).
Lemma restore_ok : forall cols h, sound h ->
  (forall nc, In nc cols -> is_mc_coll (snd nc) = true -> Forall (is_mc h) (c_elems (snd nc))) ->
  exists h', restore h cols = Ok h' /\ sound h' /\ (forall a, is_mc h a -> is_mc h' a).
Proof.
  induction cols as [|[n c] cols IH]; intros h S H; cbn [restore]; [exists h; auto|].
  destruct (bytes_eqb (c_type c) (str "MCParticle") && negb (bit_set (c_flag c) BITSubset)) eqn:E.
  - assert (F : Forall (is_mc h) (c_elems c)) by (apply (H (n, c)); [left; reflexivity|exact E]).
    destruct (count_links_ok h _ F) as [[nd np] ->]. cbn [bind].
    destruct (restore_elems_ok nd np _ _ S F) as (h' & -> & S' & M). cbn [bind].
    destruct (IH h' S') as (h2 & E2 & S2 & M2).
    { intros nc Hi Hm. eapply Forall_impl; [|apply H; [right; exact Hi|exact Hm]]. exact M. }
    exists h2. auto.
  - apply IH; [exact S|]. intros nc Hi Hm. apply H; [right; exact Hi|exact Hm].
Qed.

(** ** The event and the objects that were read *)

Lemma last_of_some {A} n (l : list (bytes * A)) x : last_of n l = Some x -> In (n, x) l.
Proof.
  unfold last_of. induction l as [|[m y] l IH]; cbn [filter map fst snd]; [discriminate|].
  destruct (bytes_eqb m n) eqn:E; [|intros H; right; apply IH; exact H].
  cbn [map last snd]. apply bytes_eqb_eq in E. subst m.
  destruct (map (fun x0 : bytes * A => Some (snd x0)) (filter (fun x0 => bytes_eqb (fst x0) n) l)) eqn:M.
  - intros H. injection H as <-. left. reflexivity.
  - intros H. right. apply IH. exact H.
Qed.

Lemma assoc_in {V} k (l : list (Z * V)) v : assoc k l = Some v -> In (k, v) l.
Proof.
  induction l as [|[k' v'] l IH]; cbn [assoc]; [discriminate|]. destruct (Z.eqb_spec k k') as [->|].
  - intros E. injection E as ->. left. reflexivity.
  - intros E. right. apply IH, E.
Qed.

Lemma map_refs_mc f o x : map_refs f o = OMC x -> exists y, o = OMC y /\ x = map_refs_mcp f y.
Proof. destruct o; cbn [map_refs]; intros E; try discriminate. injection E as <-. eauto. Qed.

Lemma flat_map_map_fst {A} (f : A -> list (Z * obj)) (g : obj -> obj) (l : list A) :
  map fst (flat_map (fun x => map (fun ao => (fst ao, g (snd ao))) (f x)) l) = map fst (flat_map f l).
Proof.
  induction l as [|x l IH]; [reflexivity|]. cbn [flat_map]. rewrite !map_app, map_map, IH. cbn [fst]. reflexivity.
Qed.

Lemma flat_map_flat {A B} (f : A -> B) {D} (g : B -> list D) l : flat_map g (map f l) = flat_map (fun x => g (f x)) l.
Proof. induction l as [|x l IH]; [reflexivity|]. cbn [map flat_map]. rewrite IH. reflexivity. Qed.

Lemma type_unique (cols : list (bytes * coll)) n c c' : NoDup (map fst cols) -> In (n, c) cols -> In (n, c') cols -> c = c'.
Proof.
  induction cols as [|[m x] cols IH]; [intros _ []|]. cbn [map fst]. intros N H H'. inversion N as [|? ? Hn N']; subst.
  destruct H as [H|H], H' as [H'|H'].
  - congruence.
  - exfalso. apply Hn. injection H as -> ->. apply (in_map fst) in H'. exact H'.
  - exfalso. apply Hn. injection H' as -> ->. apply (in_map fst) in H. exact H.
  - apply IH; assumption.
Qed.

Lemma forallb_false {A} (f : A -> bool) l : forallb f l = false -> exists x, In x l /\ f x = false.
Proof.
  induction l as [|x l IH]; cbn [forallb]; [discriminate|]. destruct (f x) eqn:E; cbn [andb].
  - intros H. destruct (IH H) as (y & Hy & Ey). exists y. split; [right; exact Hy|exact Ey].
  - intros _. exists x. split; [left; reflexivity|exact E].
Qed.

(** all the parents are there, and the elements of collections of particles are particles *)
Definition linked (h : heap) (e : event) : Prop :=
  sound h /\ forall nc, In nc (ev_cols e) -> is_mc_coll (snd nc) = true -> Forall (is_mc h) (c_elems (snd nc)).

Lemma post_split srt data e0 next e h next' : 0 < next -> all_empty (ev_cols e0) -> NoDup (map fst (ev_cols e0)) ->
  read_event_record srt data e0 next = Ok (e, h, next') -> orphan h \/ linked h e.
Proof.
  intros Hn HE ND. unfold read_event_record.
  destruct (read_blocks data (coll_handlers srt (ev_cols e0)) next) as [[[out at_] n2]|x|u] eqn:E; cbn [bind]; try discriminate.
  destruct (repeats (map fst out)); [discriminate|].
  unfold read_blocks in E. apply blocks_fresh in E; [|lia]. destruct E as ((FR & FO) & _).
  set (g := reloc_ptr at_).
  intros X. injection X as <- <- <-. unfold linked. cbn [ev_cols].
  set (out' := map (fun x => (fst x, reloc_rcoll at_ (snd x))) out).
  set (objs := flat_map (fun x => rc_objs (snd x)) out').
  assert (Eo : objs = flat_map (fun x => map (fun ao => (fst ao, map_refs g (snd ao))) (rc_objs (snd x))) out).
  { unfold objs, out'. rewrite flat_map_flat. reflexivity. }
  assert (Ndo : NoDup (map fst objs)).
  { rewrite Eo. rewrite (flat_map_map_fst (fun x => rc_objs (snd x)) (map_refs g) out). apply FR. }
  (* the elements of collections of particles *)
  assert (EL : forall nc, In nc (filled (ev_cols e0) out') -> is_mc_coll (snd nc) = true ->
                          Forall (is_mc (heap_of objs)) (c_elems (snd nc))).
  { intros nc Hi Hm. unfold filled in Hi. apply in_map_iff in Hi. destruct Hi as ([n c] & <- & Hi). cbn [fst snd] in *.
    destruct (last_of n out') as [rc|] eqn:L.
    2:{ pose proof (HE (n, c) Hi) as X. cbn [snd] in X. rewrite X. constructor. }
    apply last_of_some in L. cbn [c_elems]. unfold is_mc_coll in Hm. cbn [c_type c_flag] in Hm.
    apply andb_true_iff in Hm. destruct Hm as [Ht Hs]. apply bytes_eqb_eq in Ht.
    unfold out' in L. apply in_map_iff in L. destruct L as ([m rc0] & EqL & L). cbn [fst snd] in EqL. injection EqL as -> <-.
    rewrite Forall_forall in FO. pose proof (FO _ L) as (c' & ty & Hi' & G & Fo & El). cbn [fst snd] in *.
    assert (c' = c) by (eapply type_unique; eauto). subst c'. rewrite Ht in G.
    assert (ty = TMC). { vm_compute in G. congruence. } subst ty.
    unfold reloc_rcoll in Hs |- *. cbn [rc_flag rc_elems] in *.
    destruct (bit_set (rc_flag rc0) BITSubset); [discriminate|]. rewrite El by reflexivity.
    apply Forall_forall. intros a Ha. apply in_map_iff in Ha. destruct Ha as ([a' o] & <- & Ha). cbn [fst].
    assert (In (a', map_refs g o) objs).
    { rewrite Eo. apply in_flat_map. exists (n, rc0). split; [exact L|]. cbn [snd]. apply in_map_iff. exists (a', o). auto. }
    split.
    - destruct FR as [FR _]. rewrite Forall_forall in FR.
      assert (In (a', o) (flat_map (fun x => rc_objs (snd x)) out)) by (apply in_flat_map; exists (n, rc0); auto).
      specialize (FR _ H0). cbn [fst] in FR. lia.
    - rewrite Forall_forall in Fo. specialize (Fo _ Ha). cbn in Fo. destruct Fo as (x & -> & _).
      eexists. unfold heap_of. apply assoc_nodup; [exact Ndo|]. exact H. }
  (* no daughters yet *)
  assert (DA : forall a o, heap_of objs a = Some (OMC o) -> mc_daughters o = []).
  { intros a o Ha. unfold heap_of in Ha. apply assoc_in in Ha. rewrite Eo in Ha. apply in_flat_map in Ha.
    destruct Ha as ([n rc] & L & Ha). apply in_map_iff in Ha. destruct Ha as ([a' o'] & Eq & Ha). cbn [fst snd] in Eq.
    injection Eq as -> Eq. apply map_refs_mc in Eq. destruct Eq as (y & -> & ->).
    rewrite Forall_forall in FO. pose proof (FO _ L) as (c' & ty & _ & _ & Fo & _). cbn [fst snd] in *.
    rewrite Forall_forall in Fo. specialize (Fo _ Ha). cbn [snd] in Fo. destruct ty; cbn [fresh_obj] in Fo;
      try (exfalso; eapply Fo; reflexivity).
    destruct Fo as (z & Ez & Hd). injection Ez as <-. cbn [mc_daughters map_refs_mcp]. rewrite Hd. reflexivity. }
  (* either all parents are there or one is missing *)
  destruct (existsb (fun ao => match snd ao with
                               | OMC o => negb (forallb (fun p => negb (p =? 0) &&
                                            match heap_of objs p with Some (OMC _) => true | _ => false end) (mc_parents o))
                               | _ => false end) objs) eqn:Q.
  - apply existsb_exists in Q. destruct Q as ([a o] & Hi & Q). cbn [snd] in Q. destruct o as [o| | | | | | | | | | | | | | | | | | | |]; try discriminate.
    apply negb_true_iff in Q. apply forallb_false in Q. destruct Q as (p & Hp & Q).
    left. exists a, o, p. split; [apply assoc_nodup; assumption|]. split; [exact Hp|].
    apply andb_false_iff in Q. destruct Q as [Q|Q].
    + left. lia.
    + right. intros o' Eo'. rewrite Eo' in Q. discriminate.
  - right. split; [|exact EL].
    assert (SD : sound (heap_of objs)).
    { intros a o Ha. rewrite (DA a o Ha), app_nil_r. apply Forall_forall. intros p Hp.
      unfold heap_of in Ha. apply assoc_in in Ha.
      assert (Q' : negb (forallb (fun p => negb (p =? 0) && match heap_of objs p with Some (OMC _) => true | _ => false end)
                        (mc_parents o)) = false).
      { match goal with |- ?x = false => destruct x eqn:T; [|reflexivity] end.
        rewrite <- Q. symmetry. apply existsb_exists. exists (a, OMC o). auto. }
      apply negb_false_iff in Q'. rewrite forallb_forall in Q'. specialize (Q' _ Hp). apply andb_true_iff in Q'.
      destruct Q' as [Q1 Q2]. split; [lia|]. destruct (heap_of objs p) as [[]|]; try discriminate. eauto. }
    exact SD.
Qed.

(** processing such an event is defined, and it can be done again *)
Lemma post_linked ign h e : linked h e ->
  match post_process ign h e with Ok h' => linked h' e | Throw _ => True | UB _ => False end.
Proof.
  intros [SD EL]. unfold post_process. destruct (restore_ok _ _ SD EL) as (h' & -> & S' & M). cbn [bind].
  destruct (negb ign && _); [exact Logic.I|]. split; [exact S'|].
  intros nc Hi Hm. eapply Forall_impl; [|exact (EL nc Hi Hm)]. exact M.
Qed.

Lemma post_cause srt data e0 next e h next' ign k : 0 < next -> all_empty (ev_cols e0) -> NoDup (map fst (ev_cols e0)) ->
  read_event_record srt data e0 next = Ok (e, h, next') ->
  post_process ign h e = UB k -> orphan h.
Proof.
  intros Hn HE ND R P. destruct (post_split _ _ _ _ _ _ _ Hn HE ND R) as [O|L]; [exact O|].
  apply (post_linked ign) in L. rewrite P in L. destruct L.
Qed.

(** ** Reading an event *)

Lemma read_event_cause srt ign names hdata edata next k : 0 < next ->
  read_event srt ign names hdata edata next = UB k ->
  zero_block hdata \/ long_name hdata \/ zero_block edata \/ long_name edata \/ repeated_block edata
  \/ (exists e0, read_header_record names hdata = Ok e0 /\ bad_collection (map (fun nc => c_type (snd nc)) (ev_cols e0)) edata)
  \/ (exists e0 e h next', read_header_record names hdata = Ok e0 /\ read_event_record srt edata e0 next = Ok (e, h, next') /\ orphan h).
Proof.
  intros Hn. unfold read_event. destruct (read_header_record names hdata) as [e0|x|u] eqn:E0; cbn [bind]; [|discriminate|].
  2:{ intros X. injection X as <-. apply read_header_cause in E0. tauto. }
  destruct (read_event_record srt edata e0 next) as [[[e h] n']|x|u] eqn:E1; cbn [bind]; [|discriminate|].
  2:{ intros X. injection X as <-. apply event_record_cause in E1.
      destruct E1 as [E1|[E1|[E1|E1]]]; [tauto|tauto|tauto|]. right; right; right; right; right; left. exists e0. auto. }
  destruct (post_process ign h e) as [h'|x|u] eqn:E2; cbn [bind]; [discriminate|discriminate|].
  intros X. injection X as <-. right; right; right; right; right; right. exists e0, e, h, n'.
  split; [reflexivity|]. split; [exact E1|].
  destruct (read_header_empty _ _ _ E0) as [H1 H2].
  eapply post_cause; [exact Hn|exact H1| |exact E1|exact E2]. apply str_sorted_nodup. exact H2.
Qed.
