(** * Run headers and events: proofs *)

From Coq Require Import Permutation Sorted.
From Verif Require Import Bytes StrMap SioModel SioProofs SioRecord SioRead SioFrame SioSpec Ieee ObjModel ObjSpec
  ObjProofs ObjCalls CollSpec CollProofs ListFacts EventModel EventSpec.

(** ** Records in general *)

Lemma rho_ok_same a b r : tags a = tags b -> ptrs a = ptrs b -> rho_ok a r -> rho_ok b r.
Proof. intros Ht Hp [H1 H2 H3 H4 H5 H6]. rewrite Ht, Hp in *. constructor; assumption. Qed.

Lemma record_written name buf blks opts :
  valid_record_name name = true -> b_valid buf = true -> b_bytes buf <> [] ->
  blocks_ok blks -> NoDup (blocks_tags blks) -> record_size name blks < two32 ->
  exists r, rho_ok (blocks_calls blks) r /\ Forall block_fits blks /\
    write_record name buf blks opts
    = Ok (mkRI 0 0 (rec_hlen name) (set_compression opts false) (Zlen (blocks_bytes r blks)) (Zlen (blocks_bytes r blks)) name,
          mkBuffer (rec_bytes r (set_compression opts false) name blks) true).
Proof.
  intros Hname Hv Hne Hok Hndt Hsz.
  pose proof (rec_hlen_range name (valid_name_small name Hname)) as [Hh _].
  assert (Hfits : Forall block_fits blks) by (apply blocks_ok_fits; [exact Hok|unfold record_size in Hsz; lia]).
  destruct (write_record_bytes name buf blks opts Hname Hv Hne (blocks_fits_ok blks Hfits) Hndt Hsz) as [He Hro].
  exists (rho_of (record_calls name (set_compression opts false) blks)). split; [|split; [exact Hfits|]].
  - eapply rho_ok_same; [| |exact Hro]; [rewrite tags_record, tags_blocks; reflexivity|rewrite ptrs_record, ptrs_blocks; reflexivity].
  - rewrite He. rewrite record_render, blocks_bytes_len. reflexivity.
Qed.

(** the data of a record in the buffer *)
Definition rec_data (ri : record_info) (buf : bytes) : bytes := skipn (Z.to_nat (ri_hlen ri)) buf.

Lemma rec_data_bytes a e o d u n r opts blks :
  rec_data (mkRI a e (rec_hlen n) o d u n) (rec_bytes r opts n blks) = blocks_bytes r blks.
Proof.
  unfold rec_data, rec_bytes. cbn [ri_hlen]. apply skipn_app_exact.
  pose proof (rec_hdr_len opts (Zlen (blocks_bytes r blks)) (Zlen (blocks_bytes r blks)) n) as E. unfold Zlen at 1 in E.
  rewrite <- E. apply Nat2Z.id.
Qed.

Lemma reloc_read all r new ts a :
  rho_ok all r -> incl ts (tags all) -> In a (ptrs all) ->
  reloc_ptr (fold_left (fun m a => if tagw r a =? 4294967295 then m else map_insert (tagw r a) (new a) m) ts [])
            (ptrw r a) = target new ts a.
Proof.
  intros Hro Hincl Hp. unfold target, reloc_ptr.
  destruct (a =? 0) eqn:E0.
  { assert (a = 0) by lia. subst. rewrite (ro_null all r Hro). reflexivity. }
  destruct (in_dec Z.eq_dec a (tags all)) as [Hin|Hni].
  - destruct (ro_link all r Hro a ltac:(lia) Hp Hin) as [Heq Hr]. rewrite Heq.
    destruct (tagw r a =? 0) eqn:Ez; [lia|].
    destruct (tags_state_lookup r new ts [] (tagw r a) I) as [_ Hl].
    cbv zeta in Hl. rewrite Hl. cbn [assoc].
    assert (Hne : tagw r a =? 4294967295 = false) by (change (2 ^ 30) with 1073741824 in Hr; lia).
    destruct (find _ _) as [b|] eqn:Ef.
    + apply find_in in Ef. destruct Ef as [Hb Hbt]. apply filter_In in Hb. destruct Hb as [Hb Hbn].
      assert (Htb : tagw r b = tagw r a) by lia.
      assert (Hab : a = b).
      { destruct (Z.eq_dec a b) as [|Hab]; [assumption|].
        assert (Hb0 : b <> 0 /\ In b (ptrs all)).
        { destruct (Z.eq_dec b 0) as [->|Hb0].
          - rewrite (ro_unref all r Hro 0) in Hbn by auto. discriminate.
          - split; [exact Hb0|]. destruct (in_dec Z.eq_dec b (ptrs all)) as [|Hnp]; [assumption|].
            rewrite (ro_unref all r Hro b) in Hbn by auto. discriminate. }
        destruct Hb0 as [Hb0 Hbp]. apply Hincl in Hb.
        apply (ro_inj all r Hro a b); try assumption; [lia|congruence]. }
      subst b. destruct (in_dec Z.eq_dec a ts); [reflexivity|contradiction].
    + destruct (in_dec Z.eq_dec a ts) as [Hts|]; [exfalso|reflexivity].
      eapply find_none in Ef; [|apply filter_In; split; [exact Hts|rewrite Hne; reflexivity]].
      rewrite Z.eqb_refl in Ef. discriminate.
  - rewrite (ro_missing all r Hro a Hni). cbn [Z.eqb].
    destruct (in_dec Z.eq_dec a ts) as [Hts|]; [exfalso; apply Hni, Hincl, Hts|reflexivity].
Qed.

(** ** References of objects *)

Lemma map_refs_map_refs f g o : map_refs f (map_refs g o) = map_refs (fun a => f (g a)) o.
Proof.
  destruct o; cbn; try reflexivity; f_equal;
    unfold map_refs_mcp, map_refs_simcalhit, map_refs_calhit, map_refs_simtrkhit, map_refs_trkpulse, map_refs_trkhit,
      map_refs_trkhitp, map_refs_trkhitz, map_refs_track, map_refs_cluster, map_refs_recp, map_refs_lcrel, map_refs_vertex;
    cbn; f_equal; rewrite ?map_map; reflexivity.
Qed.
Lemma map_refs_ext f g o : (forall a, In a (refs o) -> f a = g a) -> map_refs f o = map_refs g o.
Proof.
  destruct o; cbn [map_refs refs]; intros H; try reflexivity; f_equal;
    unfold map_refs_mcp, map_refs_simcalhit, map_refs_calhit, map_refs_simtrkhit, map_refs_trkpulse, map_refs_trkhit,
      map_refs_trkhitp, map_refs_trkhitz, map_refs_track, map_refs_cluster, map_refs_recp, map_refs_lcrel, map_refs_vertex;
    f_equal; try (apply map_ext_in; intros a Ha); try (apply H; rewrite ?in_app_iff; cbn; tauto).
  unfold map_refs_cont. f_equal. apply H. apply in_map. exact Ha.
Qed.
Lemma refs_resort srt o : refs (resort srt o) = refs o.
Proof. destruct o; reflexivity. Qed.
Lemma refs_map_owned f o : refs (map_owned f o) = refs o.
Proof. destruct o; reflexivity. Qed.

(** ** Run headers *)

Lemma reads_version r st : reads (check_version cur_vers) (renderR r []) st st tt.
Proof. exact (reads_ret tt st). Qed.

Lemma reads_runhdr r st x : runhdr_ok x -> reads (read_runhdr cur_vers) (renderR r (write_runhdr x)) st st x.
Proof.
  intros (H1 & H2 & H3 & H4 & H5 & H6). unfold read_runhdr, write_runhdr.
  eapply rb_none; [exact (reads_version r st)|].
  eapply rb; [apply ri32; exact H1|].
  eapply rb; [apply rstr; exact H2|].
  eapply rb; [apply rstr; exact H3|].
  eapply rb; [apply rcnt; exact H4|].
  replace (flat_map w_string (rh_subs x)) with (flat_map w_string (upto (rh_subs x))) by (rewrite upto_id by exact H4; reflexivity).
  eapply rb; [eapply rloop_id; [exact H4|exact H5|intros y Hy; apply rstr; exact Hy]|].
  eapply rb_last; [eapply rwhen_true; apply reads_params; exact H6|].
  apply rret_eq; [destruct x; reflexivity|reflexivity].
Qed.
Lemma data_runhdr x : runhdr_ok x -> all_data (write_runhdr x).
Proof.
  intros (H1 & H2 & H3 & H4 & H5 & H6). unfold write_runhdr. rewrite Forall_forall in H5.
  apply data_app; [apply data_i32|]. apply data_app; [apply data_string; exact H2|].
  apply data_app; [apply data_string; exact H3|]. apply data_app; [apply data_i32|].
  apply data_app; [|apply data_params; exact H6].
  apply data_fm. intros y Hy. apply data_string. apply H5. exact Hy.
Qed.

Lemma single_block {A} name (rd : Z -> RD A) rname buf w (x : A) opts :
  valid_record_name rname = true -> Zlen name < 2 ^ 31 -> b_valid buf = true -> b_bytes buf <> [] ->
  all_data w -> (forall r st, reads (rd cur_vers) (renderR r w) st st x) ->
  record_size rname [mkWB name cur_vers w] < two32 ->
  exists r,
    write_record rname buf [mkWB name cur_vers w] opts
    = Ok (mkRI 0 0 (rec_hlen rname) (set_compression opts false) (Zlen (blocks_bytes r [mkWB name cur_vers w]))
            (Zlen (blocks_bytes r [mkWB name cur_vers w])) rname,
          mkBuffer (rec_bytes r (set_compression opts false) rname [mkWB name cur_vers w]) true) /\
    forall next, read_blocks (blocks_bytes r [mkWB name cur_vers w]) [mkRB name rd] next = Ok ([(name, x)], [], next).
Proof.
  intros Hn Hl Hv Hb Hd Hr Hs. set (b := mkWB name cur_vers w) in *.
  assert (Hok : blocks_ok [b]).
  { apply Forall_cons; [|apply Forall_nil]. split; [apply data_ok; exact Hd|split; [exact Hl|]]. cbn. unfold cur_vers. vm_compute. split; congruence. }
  assert (Ht : blocks_tags [b] = []) by (unfold blocks_tags; cbn [flat_map]; rewrite app_nil_r; apply data_tags; exact Hd).
  destruct (record_written rname buf [b] opts Hn Hv Hb Hok ltac:(rewrite Ht; constructor) Hs) as (r & _ & Hf & E).
  exists r. split; [exact E|]. intros next.
  apply (read_blocks_spec [mkRB name rd] r [b] next ([], next) [(name, x)]); [|exact Hf].
  eapply (BR_read _ _ b [] (mkRB name rd)); [|apply Hr|apply BR_nil]. unfold find_block. cbn [find rb_name wb_name b]. rewrite bytes_eqb_refl. reflexivity.
Qed.

Theorem run_roundtrip buf x : b_valid buf = true -> b_bytes buf <> [] -> runhdr_ok x ->
  record_size run_record [mkWB run_block cur_vers (write_runhdr x)] < two32 ->
  exists ri buf', write_run_record buf x = Ok (ri, buf') /\ ri_name ri = run_record /\
    read_run_record (rec_data ri (b_bytes buf')) = Ok x.
Proof.
  intros Hv Hb Hx Hs.
  destruct (single_block run_block read_runhdr run_record buf (write_runhdr x) x 0) as (r & E & R); try assumption.
  { reflexivity. } { reflexivity. } { apply data_runhdr; exact Hx. } { intros. apply reads_runhdr; exact Hx. }
  do 2 eexists. split; [exact E|]. split; [reflexivity|]. cbn [b_bytes]. rewrite rec_data_bytes.
  unfold read_run_record. rewrite R. reflexivity.
Qed.

(** ** Event headers *)

Lemma good_name_validate n : good_name n -> validate n = true.
Proof.
  intros (b & s & -> & Hb & Hs). cbn [validate]. rewrite Hb. cbn [andb].
  induction Hs as [|c s Hc Hs IH]; [reflexivity|]. cbn [validate_tail]. rewrite Hc, IH. destruct (Zb c =? 0); reflexivity.
Qed.

Lemma before_last_app s : before_last subset_postfix (s ++ subset_postfix) = Some s.
Proof. induction s as [|b s IH]; [vm_compute; reflexivity|]. cbn [app before_last]. rewrite IH. reflexivity. Qed.

Lemma registered_type n ty : get_handler n = Some ty ->
  before_last subset_postfix n = None /\ vec_len n /\ vec_len (n ++ subset_postfix).
Proof.
  unfold get_handler. destruct (find _ _) as [[n' ty']|] eqn:E; [|discriminate]. intros _.
  apply find_some in E. destruct E as [Hin He]. apply bytes_eqb_eq in He. cbn [fst] in He. subst n'.
  assert (F : Forall (fun e => before_last subset_postfix (fst e) = None /\ Zlen (fst e) < 100) registry).
  { repeat (apply Forall_cons; [split; vm_compute; reflexivity|]). apply Forall_nil. }
  rewrite Forall_forall in F. specialize (F _ Hin). cbn [fst] in F. destruct F as [F1 F2].
  split; [exact F1|]. unfold vec_len. rewrite Zlen_app. change (Zlen subset_postfix) with 11. lia.
Qed.

Definition bare (nc : bytes * coll) : bytes * coll := (fst nc, mkColl (c_type (snd nc)) 0 no_params []).
Definition hdr_ok (nc : bytes * coll) : Prop :=
  good_name (fst nc) /\ vec_len (fst nc) /\ exists ty, get_handler (c_type (snd nc)) = Some ty.

Lemma bit_set_test f n : 0 <= n < 32 -> bit_set f n = Z.testbit f n.
Proof. intros H. unfold bit_set. try reflexivity. Qed.

Lemma reads_cols names r st : forall cols acc,
  Forall hdr_ok cols -> sm_ok (acc ++ map bare cols) ->
  reads (read_cols (length cols) names acc)
    (renderR r (flat_map (fun nc => w_string (fst nc) ++ w_string (header_type (snd nc))) cols)) st st
    (acc ++ map bare (filter (fun nc => wanted names (fst nc)) cols)).
Proof.
  induction cols as [|nc cols IH]; intros acc Hok Hs.
  { cbn [map filter]. rewrite app_nil_r. apply reads_ret. }
  inversion Hok as [|? ? (Hg & Hl & ty & Hty) Hok']; subst.
  cbn [length read_cols flat_map].
  destruct (registered_type _ _ Hty) as (Hb & Hv & Hv').
  assert (Hh : vec_len (header_type (snd nc))) by (unfold header_type; destruct (bit_set _ _); assumption).
  assert (Ht : (match before_last subset_postfix (header_type (snd nc)) with Some t => t | None => header_type (snd nc) end) = c_type (snd nc)).
  { unfold header_type. destruct (bit_set _ _); [rewrite before_last_app|rewrite Hb]; reflexivity. }
  assert (Hlt : forall x, In x (sm_keys acc) -> str_lt x (fst nc)).
  { intros x Hx. unfold sm_ok, sm_keys in Hs. rewrite map_app in Hs.
    clear -Hs Hx. unfold sm_keys in Hx. induction (map fst acc) as [|y l IHl]; [destruct Hx|].
    cbn [app] in Hs. inversion Hs as [|? ? H1 H2]; subst. destruct Hx as [->|Hx]; [|apply IHl; assumption].
    rewrite Forall_forall in H2. apply H2. apply in_or_app. right. left. reflexivity. }
  eapply rb.
  - unfold read_col. eapply rb; [apply rstr; exact Hl|]. eapply rb_last; [apply rstr; exact Hh|]. cbv zeta. rewrite Ht.
    instantiate (1 := if wanted names (fst nc) then acc ++ [bare nc] else acc). change (selected names (fst nc)) with (wanted names (fst nc)).
    destruct (wanted names (fst nc)); [|apply rret_eq; reflexivity].
    intros pre post. unfold add_coll. rewrite good_name_validate by exact Hg. cbn [negb].
    assert (Hn : sm_get (fst nc) acc = None).
    { assert (Hso : sm_ok acc).
      { clear -Hs. unfold sm_ok, sm_keys in *. rewrite map_app in Hs.
        induction (map fst acc) as [|y l IHl]; [constructor|]. cbn [app] in Hs. inversion Hs; subst. constructor; [apply IHl; assumption|].
        match goal with H : Forall _ (_ ++ _) |- _ => apply Forall_app in H; apply H end. }
      destruct (sm_get (fst nc) acc) eqn:Eg; [|reflexivity]. exfalso.
      assert (Hk : In (fst nc) (sm_keys acc)) by (apply sm_get_keys; [exact Hso|congruence]).
      apply Hlt in Hk. exact (str_lt_irrefl _ Hk). }
    rewrite Hn. rewrite sm_set_last by exact Hlt. change (renderR r []) with (@nil byte).
    unfold Zlen at 2. cbn [length Z.of_nat]. rewrite Z.add_0_r. reflexivity.
  - cbn [filter map]. destruct (wanted names (fst nc)).
    + cbn [map]. replace (acc ++ bare nc :: map bare (filter (fun nc => wanted names (fst nc)) cols))
        with ((acc ++ [bare nc]) ++ map bare (filter (fun nc => wanted names (fst nc)) cols)) by (rewrite <- app_assoc; reflexivity).
      apply IH; [exact Hok'|]. rewrite <- app_assoc. exact Hs.
    + apply IH; [exact Hok'|]. cbn [map] in Hs. clear -Hs. unfold sm_ok, sm_keys in *. rewrite map_app in *. cbn [map] in Hs.
      induction (map fst acc) as [|y l IHl]; cbn [app] in *.
      * inversion Hs; assumption.
      * inversion Hs; subst. constructor; [apply IHl; assumption|].
        match goal with H : Forall _ (_ ++ _) |- _ => apply Forall_app in H; destruct H as [Ha Hb]; inversion Hb; subst; apply Forall_app; split; assumption end.
Qed.

Lemma ri64 z r st : int64 z -> reads r_i64 (renderR r (w_i64 z)) st st z.
Proof.
  intros H. unfold w_i64. cbn [renderR flat_map renderR_call]. rewrite app_nil_r, padz_be8. apply reads_i64. exact H.
Qed.

Lemma stored_cols_eq only e : filter (to_write only) (ev_cols e) = stored_cols only e.
Proof. reflexivity. Qed.

Lemma sm_ok_filter {V} f (m : list (bytes * V)) : sm_ok m -> sm_ok (filter f m).
Proof.
  induction m as [|[k v] m IH]; intros H; [exact H|]. apply sm_ok_inv in H. destruct H as [H1 H2]. cbn [filter].
  destruct (f (k, v)); [|apply IH; exact H1]. unfold sm_ok in *. cbn [sm_keys map fst]. constructor; [apply IH; exact H1|].
  rewrite Forall_forall in *. intros x Hx. apply H2. unfold sm_keys in *. apply in_map_iff in Hx. destruct Hx as (y & <- & Hy).
  apply filter_In in Hy. apply in_map. apply Hy.
Qed.
Lemma sm_ok_keys {V W} (m : list (bytes * V)) (m' : list (bytes * W)) : map fst m = map fst m' -> sm_ok m -> sm_ok m'.
Proof. unfold sm_ok, sm_keys. intros ->. auto. Qed.
Lemma filter_len {A} f (l : list A) : Zlen (filter f l) <= Zlen l.
Proof. induction l as [|x l IH]; [cbn; lia|]. cbn [filter]. destruct (f x); rewrite ?Zlen_cons; lia. Qed.

Definition hdr_event (only names : list bytes) (e : event) : event :=
  mkEvt (ev_run e) (ev_num e) (ev_time e) (ev_det e) (ev_par e) (map bare (read_back only names e)).

Lemma stored_hdr_ok only h e : event_ok only h e -> Forall hdr_ok (stored_cols only e).
Proof.
  intros (_ & _ & _ & _ & _ & _ & _ & H & _). eapply Forall_impl; [|exact H].
  intros nc (H1 & H2 & ty & H3 & _). split; [exact H1|split; [exact H2|exists ty; exact H3]].
Qed.

Lemma reads_evhdr only names h e r st : event_ok only h e ->
  reads (read_evhdr names cur_vers) (renderR r (write_evhdr only e)) st st (hdr_event only names e).
Proof.
  intros He. pose proof (stored_hdr_ok only h e He) as Hh. destruct He as (H1 & H2 & H3 & H4 & H5 & H6 & H7 & _).
  unfold read_evhdr, write_evhdr. rewrite stored_cols_eq.
  assert (Hl : Zlen (stored_cols only e) < 2 ^ 28).
  { unfold vec_len in H7. pose proof (filter_len (to_write only) (ev_cols e)) as E. rewrite stored_cols_eq in E. lia. }
  eapply rb_none; [exact (reads_version r st)|].
  eapply rb; [apply ri32; exact H1|].
  eapply rb; [apply ri32; exact H2|].
  eapply rb; [apply ri64; exact H3|].
  eapply rb; [apply rstr; exact H4|].
  change (w_u32 (Zlen (stored_cols only e))) with (w_i32 (Zlen (stored_cols only e))).
  eapply rb; [apply ri32; pose proof (Zlen_nonneg (stored_cols only e)); unfold int32; lia|].
  replace (Z.to_nat (Zlen (stored_cols only e))) with (length (stored_cols only e)) by (unfold Zlen; lia).
  eapply rb.
  - apply (reads_cols names r st (stored_cols only e) []); [exact Hh|]. cbn [app].
    eapply sm_ok_keys; [|exact (sm_ok_filter (to_write only) _ H6)]. rewrite map_map. reflexivity.
  - eapply rb_last; [eapply rwhen_true; apply reads_params; exact H5|]. apply rret_eq; reflexivity.
Qed.

Lemma data_evhdr only h e : event_ok only h e -> all_data (write_evhdr only e).
Proof.
  intros He. pose proof (stored_hdr_ok only h e He) as Hh. destruct He as (H1 & H2 & H3 & H4 & H5 & H6 & H7 & _).
  unfold write_evhdr. rewrite stored_cols_eq.
  apply data_app; [apply data_i32|]. apply data_app; [apply data_i32|].
  apply data_app; [apply data_one, small_be; lia|]. apply data_app; [apply data_string; exact H4|].
  apply data_app; [apply data_u32|]. apply data_app; [|apply data_params; exact H5].
  apply data_fm. intros nc Hnc. rewrite Forall_forall in Hh. destruct (Hh nc Hnc) as (_ & Hl & ty & Hty).
  destruct (registered_type _ _ Hty) as (_ & Hv & Hv').
  apply data_app; apply data_string; [exact Hl|]. unfold header_type. destruct (bit_set _ _); assumption.
Qed.

Lemma header_roundtrip buf only names h e : b_valid buf = true -> b_bytes buf <> [] -> event_ok only h e ->
  record_size header_record [mkWB header_block cur_vers (write_evhdr only e)] < two32 ->
  exists ri buf', write_header_record buf only e = Ok (ri, buf') /\ ri_name ri = header_record /\
    read_header_record names (rec_data ri (b_bytes buf')) = Ok (hdr_event only names e).
Proof.
  intros Hv Hb Hx Hs.
  destruct (single_block header_block (read_evhdr names) header_record buf (write_evhdr only e) (hdr_event only names e) 0) as (r & E & R); try assumption.
  { reflexivity. } { reflexivity. } { eapply data_evhdr; exact Hx. } { intros. eapply reads_evhdr; exact Hx. }
  do 2 eexists. split; [exact E|]. split; [reflexivity|]. cbn [b_bytes]. rewrite rec_data_bytes.
  unfold read_header_record. rewrite R. reflexivity.
Qed.

(** ** The event record *)

(** the block of a collection *)
Definition block_for srt (h : heap) (nc : bytes * coll) (b : wblock) (nc' : bytes * coll) : Prop :=
  wb_name b = fst nc /\ wb_version b = cur_vers /\ fst nc' = fst nc /\
  exists ty p',
    get_handler (c_type (snd nc)) = Some ty /\
    snd nc' = mkColl (c_type (snd nc)) (stored_flag ty h (snd nc)) p' (c_elems (snd nc)) /\
    p' = stored_params ty h (snd nc) /\
    shape (wb_calls b) (coll_tags h (snd nc)) (coll_refs ty h (snd nc)) /\
    forall r all new st, rho_ok all r -> numbers new (coll_objs h (snd nc)) (snd st) ->
      reads (read_coll srt ty cur_vers) (renderR r (wb_calls b)) st
        (tags_state r new (wb_calls b) (fst st), snd st + Zlen (coll_objs h (snd nc)))
        (mkRC (stored_flag ty h (snd nc)) p'
              (if is_subset (snd nc) then map (ptrw r) (c_elems (snd nc)) else map new (c_elems (snd nc)))
              (if is_subset (snd nc) then []
               else copies srt new (ptrw r) (stored_flag ty h (snd nc)) (stores_fixed ty h (snd nc)) h (c_elems (snd nc)))).

(** the event after writing *)
Definition after_write srt h only (nc nc' : bytes * coll) : Prop :=
  if to_write only nc then exists b, block_for srt h nc b nc' else nc' = nc.

Lemma event_blocks_spec srt only h : forall cols,
  Forall (fun nc => exists ty, get_handler (c_type (snd nc)) = Some ty /\ coll_ok ty h (snd nc)) (filter (to_write only) cols) ->
  exists bs cols', event_blocks only h cols = Ok (bs, cols') /\
    Forall2 (fun nc b => exists nc', block_for srt h nc b nc') (filter (to_write only) cols) bs /\
    Forall2 (after_write srt h only) cols cols'.
Proof.
  induction cols as [|[n c] cols IH]; intros H.
  { exists [], []. split; [reflexivity|]. split; constructor. }
  cbn [event_blocks filter] in *. unfold after_write at 1. destruct (to_write only (n, c)) eqn:Ew.
  - inversion H as [|? ? (ty & Hty & Hc) H']; subst. cbn [snd] in *. rewrite Hty.
    destruct (coll_spec srt ty h c Hc) as (p' & w & E & Hp & Hs & Hsh & Hr). rewrite E. cbn [bind].
    destruct (IH H') as (bs & cols' & E' & F1 & F2). rewrite E'. cbn [bind].
    assert (Hb : block_for srt h (n, c) (mkWB n cur_vers w) (n, mkColl (c_type c) (stored_flag ty h c) p' (c_elems c))).
    { split; [reflexivity|]. split; [reflexivity|]. split; [reflexivity|]. exists ty, p'. cbn [snd wb_calls].
      split; [exact Hty|]. split; [reflexivity|]. split; [exact Hs|]. split; [exact Hsh|exact Hr]. }
    do 2 eexists. split; [reflexivity|]. split; constructor.
    + eexists. exact Hb.
    + exact F1.
    + unfold after_write. rewrite Ew. eexists. exact Hb.
    + exact F2.
  - destruct (IH H) as (bs & cols' & E' & F1 & F2). rewrite E'. cbn [bind].
    do 2 eexists. split; [reflexivity|]. split; [exact F1|]. constructor; [|exact F2].
    unfold after_write. rewrite Ew. reflexivity.
Qed.

Definition ts_state (r : rho) (new : addr -> addr) (ts : list addr) (m : list (Z * addr)) : list (Z * addr) :=
  fold_left (fun m a => if tagw r a =? 4294967295 then m else map_insert (tagw r a) (new a) m) ts m.

(** what is read from a block *)
Definition out_for srt h r new (nc : bytes * coll) (o : bytes * rcoll) : Prop :=
  fst o = fst nc /\ exists ty p', get_handler (c_type (snd nc)) = Some ty /\
    p' = stored_params ty h (snd nc) /\
    snd o = mkRC (stored_flag ty h (snd nc)) p'
              (if is_subset (snd nc) then map (ptrw r) (c_elems (snd nc)) else map new (c_elems (snd nc)))
              (if is_subset (snd nc) then []
               else copies srt new (ptrw r) (stored_flag ty h (snd nc)) (stores_fixed ty h (snd nc)) h (c_elems (snd nc))).

Lemma event_blocks_read srt h r all new names H : rho_ok all r -> forall cols bs,
  Forall2 (fun nc b => exists nc', block_for srt h nc b nc') cols bs ->
  (forall nc, In nc cols -> if wanted names (fst nc)
     then find_block (fst nc) H = Some (mkRB (fst nc) (fun vers => match get_handler (c_type (snd nc)) with
                                         | Some ty => read_coll srt ty vers | None => rub UBNullDeref end))
     else find_block (fst nc) H = None) ->
  forall at_ n,
  numbers new (flat_map (fun nc => coll_objs h (snd nc)) (filter (fun nc => wanted names (fst nc)) cols)) n ->
  exists out,
  blocks_read H r bs (at_, n)
    (ts_state r new (flat_map (fun nc => coll_tags h (snd nc)) (filter (fun nc => wanted names (fst nc)) cols)) at_,
     n + Zlen (flat_map (fun nc => coll_objs h (snd nc)) (filter (fun nc => wanted names (fst nc)) cols))) out /\
  Forall2 (out_for srt h r new) (filter (fun nc => wanted names (fst nc)) cols) out.
Proof.
  intros Hro cols bs F. induction F as [|nc b cols bs (nc' & Hb) F IH]; intros Hin at_ n Hnum.
  { exists []. cbn [filter flat_map]. change (Zlen (@nil addr)) with 0. rewrite Z.add_0_r. split; [apply BR_nil|constructor]. }
  pose proof (Hin nc (or_introl eq_refl)) as Hf. assert (Hin' := fun x Hx => Hin x (or_intror Hx)).
  destruct Hb as (Hn & Hv & _ & ty & p' & Hty & _ & Hs & Hsh & Hr).
  cbn [filter] in *. destruct (wanted names (fst nc)) eqn:Ew.
  - cbn [flat_map] in *. apply numbers_app in Hnum. destruct Hnum as [Hn1 Hn2].
    destruct (IH Hin' (ts_state r new (coll_tags h (snd nc)) at_) (n + Zlen (coll_objs h (snd nc))) Hn2) as (out & Hbr & Fo).
    eexists. split.
    + rewrite <- Hn in Hf. eapply BR_read; [exact Hf| |].
      * cbn [rb_read]. rewrite Hty, Hv. apply (Hr r all new (at_, n)); [exact Hro|exact Hn1].
      * cbn [fst snd]. unfold tags_state. rewrite (sh_tags _ _ _ Hsh). fold (ts_state r new (coll_tags h (snd nc)) at_).
        unfold ts_state at 2. rewrite fold_left_app. fold (ts_state r new (coll_tags h (snd nc)) at_). rewrite Zlen_app, Z.add_assoc.
        exact Hbr.
    + constructor; [|exact Fo]. split; [exact Hn|]. exists ty, p'. cbn [snd]. auto.
  - destruct (IH Hin' at_ n Hnum) as (out & Hbr & Fo). exists out. split; [|exact Fo].
    rewrite <- Hn in Hf. apply BR_skip; assumption.
Qed.

(** *** Numbering *)

Lemma numbers_inj f l n : numbers f l n -> forall a b, In a l -> In b l -> f a = f b -> a = b.
Proof.
  intros H a b Ha Hb E. apply In_nth_error in Ha, Hb. destruct Ha as (i & Hi), Hb as (j & Hj).
  rewrite (H i a Hi), (H j b Hj) in E. assert (i = j) by lia. subst j. congruence.
Qed.
Lemma numbers_pos f l n a : numbers f l n -> 0 < n -> In a l -> 0 < f a.
Proof. intros H Hn Ha. apply In_nth_error in Ha. destruct Ha as (i & Hi). rewrite (H i a Hi). lia. Qed.

Lemma part_tags h c : part (coll_tags h c) (coll_objs h c).
Proof.
  unfold coll_tags, coll_objs, own_objs. destruct (is_subset c); [exists []; constructor|].
  apply part_flat_map. intros a _. destruct (h a) as [o|]; [|exists [a]; apply Permutation_refl].
  destruct (pointable (c_flag c) o).
  - exists []. rewrite app_nil_r. apply Permutation_cons_append.
  - exists [a]. rewrite app_nil_r. apply Permutation_cons_append.
Qed.

Lemma assoc_nodup {V} (l : list (Z * V)) k v : NoDup (map fst l) -> In (k, v) l -> assoc k l = Some v.
Proof.
  induction l as [|[k' v'] l IH]; intros Hn Hi; [destruct Hi|]. cbn [map fst assoc] in *. inversion Hn as [|? ? Hni Hn']; subst.
  destruct Hi as [E|Hi].
  - injection E as -> ->. rewrite Z.eqb_refl. reflexivity.
  - destruct (k =? k') eqn:Ek; [|apply IH; assumption]. assert (k = k') by lia. subst k'. exfalso. apply Hni.
    apply (in_map fst) in Hi. exact Hi.
Qed.

Lemma NoDup_map_inj {A B} (f : A -> B) l : (forall a b, In a l -> In b l -> f a = f b -> a = b) -> NoDup l -> NoDup (map f l).
Proof.
  intros Hi H. induction H as [|x l Hn H IH]; [constructor|]. cbn [map]. constructor.
  - intros Hx. apply in_map_iff in Hx. destruct Hx as (y & E & Hy). apply Hn.
    rewrite (Hi x y (or_introl eq_refl) (or_intror Hy) (eq_sym E)). exact Hy.
  - apply IH. intros a b Ha Hb. apply Hi; right; assumption.
Qed.

Lemma last_of_in {A} n (x : A) l : NoDup (map fst l) -> In (n, x) l -> last_of n l = Some x.
Proof.
  intros Hn Hi. unfold last_of. assert (E : filter (fun y => bytes_eqb (fst y) n) l = [(n, x)]).
  { induction l as [|[m y] l IH]; [destruct Hi|]. cbn [map fst filter] in *. inversion Hn as [|? ? Hni Hn']; subst.
    destruct Hi as [E|Hi].
    - injection E as -> ->. rewrite bytes_eqb_refl. f_equal.
      clear -Hni. induction l as [|[m y] l IH]; [reflexivity|]. cbn [map fst filter In] in *.
      destruct (bytes_eqb m n) eqn:E; [apply bytes_eqb_eq in E; subst m; exfalso; apply Hni; left; reflexivity|].
      apply IH. intros H. apply Hni. right. exact H.
    - destruct (bytes_eqb m n) eqn:E; [|apply IH; assumption].
      apply bytes_eqb_eq in E. subst m. exfalso. apply Hni. apply (in_map fst) in Hi. exact Hi. }
  rewrite E. reflexivity.
Qed.

(** *** The theorem *)

Definition elem_map (new tgt : addr -> addr) (sub : bool) : addr -> addr := if sub then tgt else new.

Lemma nodup_repeats l : NoDup l -> repeats l = false.
Proof.
  induction 1 as [|n l Hn _ IH]; [reflexivity|]. cbn [repeats]. rewrite IH, orb_false_r.
  destruct (existsb (bytes_eqb n) l) eqn:E; [|reflexivity]. apply existsb_exists in E. destruct E as (m & Hm & E).
  apply bytes_eqb_eq in E. subst m. contradiction.
Qed.

(** the output after the relocation *)
Definition out_reloc srt h new tgt (nc : bytes * coll) (o : bytes * rcoll) : Prop :=
  fst o = fst nc /\ exists ty p', get_handler (c_type (snd nc)) = Some ty /\
    p' = stored_params ty h (snd nc) /\
    snd o = mkRC (stored_flag ty h (snd nc)) p'
              (map (elem_map new tgt (is_subset (snd nc))) (c_elems (snd nc)))
              (if is_subset (snd nc) then []
               else copies srt new tgt (stored_flag ty h (snd nc)) (stores_fixed ty h (snd nc)) h (c_elems (snd nc))).

Lemma stored_flag_refs ty h c a o : coll_ok ty h c -> is_subset c = false -> In a (c_elems c) -> h a = Some o ->
  refs (stored (stored_flag ty h c) (stores_fixed ty h c) o) = refs (stored (c_flag c) (stores_fixed ty h c) o).
Proof.
  intros (_ & _ & _ & _ & Hs & _) Hn Ha Ho. destruct (Hs Hn) as [Ht _]. destruct (Ht a Ha) as (_ & o' & Ho' & Hty).
  rewrite Ho in Ho'. injection Ho' as <-. f_equal. apply go_stored_flag. exact Hty.
Qed.

Lemma out_relocated srt h r all new ts nc o ty :
  rho_ok all r -> incl ts (tags all) -> get_handler (c_type (snd nc)) = Some ty -> coll_ok ty h (snd nc) ->
  (forall a, In a (coll_refs ty h (snd nc)) -> In a (ptrs all)) ->
  out_for srt h r new nc o ->
  out_reloc srt h new (target new ts) nc (fst o, reloc_rcoll (ts_state r new ts []) (snd o)).
Proof.
  intros Hro Hincl Hty Hc Hp (Hn & ty' & p' & Hty' & Hs & E). rewrite Hty in Hty'. injection Hty' as <-.
  split; [exact Hn|]. exists ty, p'. split; [exact Hty|]. split; [exact Hs|]. cbn [snd]. rewrite E.
  unfold reloc_rcoll. cbn [rc_flag rc_par rc_elems rc_objs]. change (bit_set (stored_flag ty h (snd nc)) BITSubset) with (Z.testbit (stored_flag ty h (snd nc)) 18).
  rewrite stored_flag_subset. unfold coll_refs in Hp. destruct (is_subset (snd nc)) eqn:Es.
  - f_equal. rewrite map_map. apply map_ext_in. intros a Ha. apply (reloc_read all); auto.
  - f_equal. unfold copies. rewrite map_flat_map. apply flat_map_ext_in. intros a Ha.
    destruct (h a) as [x|] eqn:Ex; [|reflexivity]. cbn [map fst snd]. f_equal. f_equal. unfold read_copy.
    rewrite map_refs_map_refs. apply map_refs_ext. intros b Hb. rewrite refs_resort, refs_map_owned in Hb.
    apply (reloc_read all); [exact Hro|exact Hincl|]. apply Hp.
    rewrite (stored_flag_refs ty h (snd nc) a x Hc Es Ha Ex) in Hb. apply in_flat_map. exists a. rewrite Ex. auto.
Qed.

Lemma out_heap srt h new tgt cols out objs : NoDup objs -> (forall a b, In a objs -> In b objs -> new a = new b -> a = b) ->
  objs = flat_map (fun nc => coll_objs h (snd nc)) cols ->
  (forall nc, In nc cols -> exists ty, get_handler (c_type (snd nc)) = Some ty /\ coll_ok ty h (snd nc)) ->
  Forall2 (out_reloc srt h new tgt) cols out ->
  forall nc a o, In nc cols -> is_subset (snd nc) = false -> In a (c_elems (snd nc)) -> h a = Some o ->
  heap_of (flat_map (fun x => rc_objs (snd x)) out) (new a) = copy_in srt new tgt h (snd nc) o.
Proof.
  intros Hnd Hinj Ho Hok F nc a o Hnc Hs Ha Hh. unfold heap_of, copy_in.
  assert (P : part (map fst (flat_map (fun x => rc_objs (snd x)) out)) (map new objs)).
  { subst objs. clear -F Hok. rewrite map_flat_map. induction F as [|nc o cols out (_ & ty & p' & Hty & _ & E) F IH]; [exists []; constructor|].
    cbn [flat_map]. destruct (IH (fun x Hx => Hok x (or_intror Hx))) as (r2 & P2). rewrite map_app.
    assert (part (map fst (rc_objs (snd o))) (map new (coll_objs h (snd nc)))) as (r1 & P1).
    { rewrite E. cbn [rc_objs]. unfold coll_objs. destruct (is_subset (snd nc)); [exists []; constructor|].
      unfold copies, own_objs. rewrite !map_flat_map. apply part_flat_map. intros a _. destruct (h a) as [x|]; cbn [map fst].
      - exists (map new (owned x)). apply Permutation_refl.
      - exists [new a]. apply Permutation_refl. }
    exists (r1 ++ r2). rewrite P1, P2. rewrite <- !app_assoc. apply Permutation_app_head. rewrite !app_assoc.
    apply Permutation_app_tail. apply Permutation_app_comm. }
  destruct (Forall2_in_l _ _ _ _ F Hnc) as (x & Hx & _ & ty & p' & Hty & _ & E). rewrite Hty.
  apply assoc_nodup.
  - apply (part_NoDup _ _ P). apply NoDup_map_inj; assumption.
  - apply in_flat_map. exists x. split; [exact Hx|]. rewrite E, Hs. cbn [rc_objs]. unfold copies. apply in_flat_map.
    exists a. split; [exact Ha|]. rewrite Hh. left. reflexivity.
Qed.

Lemma out_filled srt h new tgt cols out : NoDup (map fst cols) ->
  Forall2 (out_reloc srt h new tgt) cols out ->
  Forall2 (coll_as h (elem_map new tgt)) cols (filled (map bare cols) out).
Proof.
  intros Hnd F. unfold filled. rewrite map_map.
  assert (Hno : NoDup (map fst out)) by (rewrite (Forall2_map_fst _ _ _ (fun x y H => proj1 H) F); exact Hnd).
  assert (G : forall nc, In nc cols -> coll_as h (elem_map new tgt) nc
    (fst (bare nc), match last_of (fst (bare nc)) out with
      | Some rc => mkColl (c_type (snd (bare nc))) (rc_flag rc) (rc_par rc) (rc_elems rc) | None => snd (bare nc) end)).
  { intros nc Hnc. destruct (Forall2_in_l _ _ _ _ F Hnc) as ([n rc] & Hx & Hn & ty & p' & Hty & Hp & E). cbn [fst snd] in Hn, E.
    cbn [bare fst snd]. rewrite <- Hn. rewrite (last_of_in n rc out Hno Hx). rewrite E.
    split; [exact Hn|]. split; [reflexivity|]. exists ty. cbn. auto. }
  clear -G. induction cols as [|nc cols IH]; [constructor|]. cbn [map]. constructor; [apply G; left; reflexivity|].
  apply IH. intros x Hx. apply G. right. exact Hx.
Qed.

Lemma str_sorted_nodup l : StronglySorted str_lt l -> NoDup l.
Proof.
  induction 1 as [|x l H IH Hf]; constructor; [|exact IH]. intros Hx. rewrite Forall_forall in Hf.
  exact (str_lt_irrefl x (Hf x Hx)).
Qed.
Lemma NoDup_map_filter {A B} (f : A -> B) p l : NoDup (map f l) -> NoDup (map f (filter p l)).
Proof.
  induction l as [|x l IH]; intros H; [exact H|]. cbn [map filter] in *. inversion H as [|? ? Hn Hd]; subst.
  destruct (p x); [|apply IH; exact Hd]. cbn [map]. constructor; [|apply IH; exact Hd].
  intros Hx. apply Hn. apply in_map_iff in Hx. destruct Hx as (y & E & Hy). apply filter_In in Hy. rewrite <- E. apply in_map, Hy.
Qed.

(** what writing does to the event *)
Definition written_as only h (nc nc' : bytes * coll) : Prop :=
  if negb (is_transient (snd nc)) && wanted only (fst nc) then coll_as h (fun _ a => a) nc nc' else nc' = nc.

Theorem event_record_spec srt only names h e buf new next :
  event_ok only h e -> event_fits only h e -> b_valid buf = true -> b_bytes buf <> [] ->
  numbers new (event_objs only names h e) next ->
  exists e1 ri buf', write_event_record buf only h e = Ok (e1, ri, buf') /\ ri_name ri = event_record /\
    same_header e e1 /\ Forall2 (written_as only h) (ev_cols e) (ev_cols e1) /\
  exists e' h', read_event_record srt (rec_data ri (b_bytes buf')) (hdr_event only names e) next
      = Ok (e', h', next + Zlen (event_objs only names h e)) /\
    same_header e e' /\
    Forall2 (coll_as h (elem_map new (target new (event_tags only names h e)))) (read_back only names e) (ev_cols e') /\
    (forall nc a o, In nc (read_back only names e) -> is_subset (snd nc) = false -> In a (c_elems (snd nc)) -> h a = Some o ->
       h' (new a) = copy_in srt new (target new (event_tags only names h e)) h (snd nc) o).
Proof.
  intros He Hfit Hv Hb Hnum. pose proof He as (H1 & H2 & H3 & H4 & H5 & H6 & H7 & H8 & H9).
  assert (Hcols : Forall (fun nc => exists ty, get_handler (c_type (snd nc)) = Some ty /\ coll_ok ty h (snd nc)) (stored_cols only e)).
  { eapply Forall_impl; [|exact H8]. intros nc (_ & _ & H). exact H. }
  destruct (event_blocks_spec srt only h (ev_cols e) Hcols) as (bs & cols' & Ebs & F1 & F2).
  rewrite stored_cols_eq in F1.
  assert (Hnames : NoDup (map fst (stored_cols only e))).
  { apply NoDup_map_filter. apply str_sorted_nodup. exact H6. }
  assert (Hbok : blocks_ok bs).
  { apply Forall_forall. intros b Hbin. destruct (Forall2_in_r _ _ _ _ F1 Hbin) as (nc & Hnc & nc' & Hn & Hvv & _ & ty & p' & _ & _ & _ & Hsh & _).
    split; [apply Hsh|]. rewrite Hn, Hvv. rewrite Forall_forall in H8. destruct (H8 nc Hnc) as (_ & Hl & _).
    split; [unfold vec_len in Hl; lia|]. vm_compute. split; congruence. }
  assert (Htags : blocks_tags bs = flat_map (fun nc => coll_tags h (snd nc)) (stored_cols only e)).
  { clear -F1. induction F1 as [|nc b cols bs (nc' & _ & _ & _ & ty & p' & _ & _ & _ & Hsh & _) F IH]; [reflexivity|].
    unfold blocks_tags in *. cbn [flat_map]. rewrite IH, (sh_tags _ _ _ Hsh). reflexivity. }
  assert (Hptag : part (blocks_tags bs) (flat_map (fun nc => coll_objs h (snd nc)) (stored_cols only e))).
  { rewrite Htags. apply part_flat_map. intros nc _. apply part_tags. }
  pose proof (part_NoDup _ _ Hptag H9) as Hndt.
  destruct (record_written event_record buf bs 0 eq_refl Hv Hb Hbok Hndt (proj2 Hfit bs cols' Ebs)) as (r & Hro & Hfits & Ew).
  assert (Hincl : incl (event_tags only names h e) (tags (blocks_calls bs))).
  { rewrite tags_blocks, Htags. intros a Ha. apply in_flat_map in Ha. destruct Ha as (nc & Hnc & Ha). apply filter_In in Hnc.
    apply in_flat_map. exists nc. split; [apply Hnc|exact Ha]. }
  assert (Hhn : NoDup (map rb_name (coll_handlers srt (map bare (read_back only names e))))).
  { unfold coll_handlers. rewrite !map_map. cbn [rb_name]. apply NoDup_map_filter. exact Hnames. }
  destruct (event_blocks_read srt h r (blocks_calls bs) new names (coll_handlers srt (map bare (read_back only names e))) Hro
    (stored_cols only e) bs F1) with (at_ := @nil (Z * addr)) (n := next) as (out & Hbr & Fo).
  { intros nc Hnc. destruct (wanted names (fst nc)) eqn:Ewa.
    - set (hd := mkRB (fst nc) (fun vers => match get_handler (c_type (snd nc)) with Some ty => read_coll srt ty vers | None => rub UBNullDeref end)).
      apply (find_block_in _ hd Hhn). unfold coll_handlers. rewrite map_map.
      apply (in_map (fun x => mkRB (fst (bare x)) (fun vers => match get_handler (c_type (snd (bare x))) with Some ty => read_coll srt ty vers | None => rub UBNullDeref end))).
      apply filter_In. auto.
    - apply find_block_none. unfold coll_handlers. rewrite !map_map. cbn [rb_name]. intros Hin. apply in_map_iff in Hin.
      destruct Hin as (y & Ey & Hy). apply filter_In in Hy. destruct Hy as [_ Hy]. cbn [bare fst] in Ey. congruence. }
  { exact Hnum. }
  fold (read_back only names e) in Hbr, Fo. fold (event_tags only names h e) in Hbr. fold (event_objs only names h e) in Hbr.
  pose proof (read_blocks_spec _ _ _ _ _ _ Hbr Hfits) as Erd. cbn [fst snd] in Erd.
  set (at_ := ts_state r new (event_tags only names h e) []) in *.
  assert (Fr : Forall2 (out_reloc srt h new (target new (event_tags only names h e))) (read_back only names e)
                 (map (fun x => (fst x, reloc_rcoll at_ (snd x))) out)).
  { apply Forall2_map_r. eapply Forall2_impl_in; [|exact Fo]. intros nc o Hnc _ Ho. apply filter_In in Hnc. destruct Hnc as [Hnc _].
    rewrite Forall_forall in Hcols. destruct (Hcols nc Hnc) as (ty & Hty & Hc).
    apply (out_relocated srt h r (blocks_calls bs) new _ nc o ty Hro Hincl Hty Hc); [|exact Ho].
    intros a Ha. rewrite ptrs_blocks.
    destruct (Forall2_in_l _ _ _ _ F1 Hnc) as (b & Hbin & nc' & _ & _ & _ & ty' & p' & Hty' & _ & _ & Hsh & _).
    rewrite Hty in Hty'. injection Hty' as <-. apply in_flat_map. exists b. split; [exact Hbin|]. rewrite (sh_ptrs _ _ _ Hsh). exact Ha. }
  unfold write_event_record. rewrite Ebs. cbn [bind]. rewrite Ew. cbn [bind].
  do 3 eexists. split; [reflexivity|]. split; [reflexivity|]. split; [repeat split|]. split.
  { cbn [ev_cols]. eapply Forall2_impl_in; [|exact F2]. intros nc nc' _ _ Haw. unfold after_write, written_as in *.
    change (negb (is_transient (snd nc)) && wanted only (fst nc)) with (to_write only nc).
    destruct (to_write only nc); [|exact Haw]. destruct Haw as (b & _ & _ & Hfn & ty & p' & Hty & E & Hs & _).
    split; [exact Hfn|]. rewrite E. split; [reflexivity|]. exists ty. cbn. rewrite map_id. auto. }
  cbn [b_bytes]. rewrite rec_data_bytes. unfold read_event_record. cbn [hdr_event ev_cols]. rewrite Erd. cbn [bind].
  assert (Rp : repeats (map fst out) = false).
  { apply nodup_repeats. replace (map fst out) with (map fst (read_back only names e)); [apply NoDup_map_filter; exact Hnames|].
    pose proof (Forall2_map_fst _ _ _ (fun x y H => proj1 H) Fr) as Em. rewrite map_map in Em. symmetry. exact Em. }
  rewrite Rp.
  do 2 eexists. split; [reflexivity|]. split; [repeat split|]. split.
  - cbn [ev_cols]. apply (out_filled srt); [|exact Fr]. apply NoDup_map_filter. exact Hnames.
  - eapply out_heap; [|exact (numbers_inj _ _ _ Hnum)|reflexivity| |exact Fr].
    + unfold event_objs, read_back. apply NoDup_flat_map_filter. exact H9.
    + intros nc Hnc. apply filter_In in Hnc. rewrite Forall_forall in Hcols. apply Hcols. apply Hnc.
Qed.
