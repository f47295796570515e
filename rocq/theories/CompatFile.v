(** * Files of earlier versions: records *)

From Coq Require Import Permutation.
From Verif Require Import Bytes StrMap SioModel SioProofs SioRecord SioRead SioFrame SioSpec Ieee ObjModel ObjSpec
  ObjProofs ObjCalls CollSpec CollProofs ListFacts EventModel EventSpec EventProofs EventFacts LayoutSpec LayoutProofs CompatSpec CompatProofs
  CompatObjs CompatColl.

(** ** Fields and a numbering *)

Definition rhoN (N : addr -> option Z) : rho :=
  mkRho (fun a => match N a with Some k => k | None => 4294967295 end) (fun a => match N a with Some k => k | None => 0 end).
Lemma rlay_N N fs : rlay (rhoN N) fs = layout N fs.
Proof. unfold rlay, layout. apply flat_map_ext. intros f. destruct f; reflexivity. Qed.
Lemma rhoN_ok N cs fs : gives cs fs -> numbering N fs -> rho_ok cs (rhoN N).
Proof.
  intros [_ Ht Hp] (H1 & H2 & H3).
  assert (X : forall a, a <> 0 -> In a (ptrs cs) -> In a (tags cs) -> exists k, N a = Some k /\ 1 <= k < 2 ^ 30).
  { intros a A0 A1 A2. rewrite Hp in A1. rewrite Ht in A2. apply in_targets in A1. apply in_ids in A2.
    pose proof (proj2 (H1 a) (conj A0 (conj A2 A1))) as A. destruct (N a) as [k|] eqn:E; [|contradiction].
    exists k. split; [reflexivity|]. apply (H2 a k E). }
  assert (Y : forall a, N a <> None -> a <> 0 /\ In a (tags cs) /\ In a (ptrs cs)).
  { intros a A. apply H1 in A. rewrite Ht, Hp, in_ids, in_targets. exact A. }
  constructor; cbn [rhoN tagw ptrw].
  - destruct (N 0) as [k|] eqn:E; [|reflexivity]. assert (A : N 0 <> None) by congruence. apply Y in A. destruct A as (A & _). contradiction.
  - intros a A0 A1 A2. destruct (X a A0 A1 A2) as (k & -> & Hk). split; [reflexivity|exact Hk].
  - intros a A. destruct (N a) as [k|] eqn:E; [|reflexivity]. assert (B : N a <> None) by congruence. apply Y in B. destruct B as (_ & B & _). contradiction.
  - intros a A. destruct (N a) as [k|] eqn:E; [|reflexivity]. assert (B : N a <> None) by congruence. apply Y in B. destruct B as (B0 & _ & B).
    destruct A; contradiction.
  - intros a b A0 B0 A1 A2 B1 B2 E. destruct (X a A0 A1 A2) as (k & Ek & _). destruct (X b B0 B1 B2) as (l & El & _).
    rewrite Ek, El in E. apply H3; congruence.
  - intros a. destruct (N a) as [k|] eqn:E; [|unfold two32; lia]. pose proof (H2 a k E). unfold two32. change (2 ^ 30) with 1073741824 in *. lia.
Qed.

(** device calls that give the fields *)
Definition call_of (f : field) : dcall :=
  match f with
  | Octet z => DData (be 1 z)
  | Word z => DData (be 4 z)
  | Long z => DData (be 8 z)
  | Shorts l => DData (flat_map (big 2) l)
  | Text s => DData s
  | Id a => DTag a
  | Ref a => DPtr a
  end.
Lemma size_nonneg fs : 0 <= size fs.
Proof.
  unfold size. induction fs as [|f fs IH]; [cbn; lia|]. cbn [fold_right].
  assert (0 <= field_size f).
  { destruct f; cbn [field_size]; try lia; apply Z.mul_nonneg_nonneg; try lia; apply Z.div_pos; try lia.
    - pose proof (Zlen_nonneg l). lia.
    - pose proof (Zlen_nonneg s). lia. }
  lia.
Qed.
Lemma small_of n : 4 * ((n + 3) / 4) < 2 ^ 32 -> n < two32 - 3.
Proof. intros H. unfold two32. change (2 ^ 32) with 4294967296 in H. Z.div_mod_to_equations. lia. Qed.
Lemma g_calls fs : size fs < 2 ^ 32 -> gives (map call_of fs) fs /\ calls_ok (map call_of fs).
Proof.
  induction fs as [|f fs IH]; intros H.
  { split; [exact g_nil|constructor]. }
  assert (E : size (f :: fs) = field_size f + size fs) by reflexivity. rewrite E in H.
  pose proof (size_nonneg fs) as P. assert (Q : 0 <= field_size f).
  { pose proof (size_nonneg [f]) as Q. change (size [f]) with (field_size f + 0) in Q. lia. }
  destruct (IH ltac:(lia)) as [G K]. cbn [map].
  assert (F : gives [call_of f] [f] /\ call_ok (call_of f)).
  { destruct f as [z|z|z|l|s|a|a]; cbn [call_of field_size] in *.
    - split; [exact (g_octet z)|]. apply small_be. lia.
    - split; [exact (g_word z)|]. apply small_be. lia.
    - split; [exact (g_long z)|]. apply small_be. lia.
    - assert (S2 : small (flat_map (big 2) l)).
      { unfold small. rewrite big2_len. apply small_of. lia. }
      split; [|exact S2]. apply g_data; [reflexivity|reflexivity|]. intros r. rewrite filled4_pad by exact S2.
      unfold rlay. cbn [flat_map rfield field_bytes]. apply app_nil_r.
    - assert (S1 : small s) by (apply small_of; lia). split; [exact (g_chars s S1)|exact S1].
    - split; [exact (g_tag a)|exact Logic.I].
    - split; [exact (g_ptr a)|exact Logic.I]. }
  destruct F as [F1 F2]. split; [exact (g_app [call_of f] _ [f] _ F1 G)|constructor; assumption].
Qed.

Lemma version_range v : version_ok v -> 0 <= version_word v < 2 ^ 32.
Proof. intros [H1 H2]. unfold version_word. change (2 ^ 32) with 4294967296. lia. Qed.
Lemma g_old_block v name cs fs : version_ok v -> small name -> gives cs fs ->
  gives (block_calls (mkWB name (version_word v) cs)) (old_block v name fs).
Proof.
  intros Hv Hn H. unfold block_calls, old_block.
  assert (B : gives (block_body (mkWB name (version_word v) cs)) ([Word 3735928559; Word (version_word v)] ++ txt name ++ fs)).
  { unfold block_body. cbn [wb_version wb_name wb_calls].
    exact (g_app _ _ _ _ (g_word 3735928559) (g_app _ _ _ _ (g_word (version_word v)) (g_app _ _ _ _ (g_name name Hn) H))). }
  cbv zeta. unfold block_len. rewrite (g_size _ _ B).
  exact (g_app _ _ _ _ (g_word _) B).
Qed.

(** ** Records with one block *)

Lemma old_single {A} v name (rd : Z -> RD A) fs x N next : version_ok v -> small name -> fits (old_block v name fs) ->
  numbering N (old_block v name fs) ->
  (forall r all st, rho_ok all r -> reads (rd (version_word v)) (rlay r fs) st st x) ->
  read_blocks (layout N (old_block v name fs)) [mkRB name rd] next = Ok ([(name, x)], [], next).
Proof.
  intros Hv Hn Hs HN Hr. unfold fits in Hs.
  assert (Hsf : size fs < 2 ^ 32).
  { assert (E : size (old_block v name fs) = 4 + (4 + (4 + (size (txt name) + size fs)))).
    { unfold old_block. cbv zeta. change (size (Word _ :: ?r)) with (4 + size r). cbn [app].
      change (size (Word ?z :: ?r)) with (4 + size r). change (size (Word ?z :: ?r)) with (4 + size r).
      unfold size at 1. cbn [fold_right field_size]. fold (size (txt name ++ fs)). rewrite size_app. reflexivity. }
    pose proof (size_nonneg (txt name)). lia. }
  destruct (g_calls fs Hsf) as [G K]. set (b := mkWB name (version_word v) (map call_of fs)).
  pose proof (g_old_block v name _ _ Hv Hn G) as GB. fold b in GB.
  assert (Gb : gives (blocks_calls [b]) (old_block v name fs)).
  { unfold blocks_calls. cbn [flat_map]. rewrite app_nil_r. exact GB. }
  pose proof (rhoN_ok N _ _ Gb HN) as Hro.
  assert (Eb : layout N (old_block v name fs) = blocks_bytes (rhoN N) [b]).
  { rewrite <- rlay_N, <- (g_bytes _ _ Gb), blocks_bytes_render. reflexivity. }
  rewrite Eb.
  apply (read_blocks_spec [mkRB name rd] (rhoN N) [b] next ([], next) [(name, x)]).
  - eapply (BR_read _ _ b [] (mkRB name rd)); [|cbn [rb_read wb_version wb_calls b]|apply BR_nil].
    + unfold find_block. cbn [find rb_name wb_name b]. rewrite bytes_eqb_refl. reflexivity.
    + rewrite (g_bytes _ _ G). apply (Hr _ _ _ Hro).
  - constructor; [|constructor]. split; [split; [exact Hn|exact K]|]. split; [|apply version_range; exact Hv].
    change two32 with (2 ^ 32). rewrite <- (block_bytes_len (rhoN N) b). rewrite <- block_bytes_render, (g_bytes _ _ GB), rlay_len. exact Hs.
Qed.

Lemma old_version v : version_ok v ->
  check_version (version_word v) = if (fst v <? 1) && (snd v <? 8) then rthrow EInvalidArgument else rret tt.
Proof.
  intros [H1 H2]. unfold check_version, version_word.
  assert (E1 : Z.shiftr (fst v * 65536 + snd v) 16 = fst v).
  { rewrite Z.shiftr_div_pow2 by lia. change (2 ^ 16) with 65536. Z.div_mod_to_equations. lia. }
  assert (E2 : Z.land (fst v * 65536 + snd v) 65535 = snd v).
  { change 65535 with (Z.ones 16). rewrite Z.land_ones by lia. change (2 ^ 16) with 65536. Z.div_mod_to_equations. lia. }
  rewrite E1, E2. reflexivity.
Qed.
Lemma good_version v : version_ok v -> accepted v -> check_version (version_word v) = rret tt.
Proof.
  intros Hv H. rewrite old_version by exact Hv. destruct ((fst v <? 1) && (snd v <? 8)) eqn:E; [|reflexivity].
  exfalso. unfold accepted in H. lia.
Qed.

Lemma f_params r b p st : params_ok p ->
  reads (r_when b (r_params no_params) no_params) (rlay r (only_if b (params_layout p))) st st (kept b p no_params).
Proof.
  intros H. destruct b; cbn [only_if r_when kept]; [|apply fret; reflexivity].
  eapply fr_of; [apply g_params; exact H|]. apply reads_params. exact H.
Qed.

Theorem old_run v x bs : version_ok v -> accepted v -> runhdr_ok x -> fits (old_run_data v x) ->
  laid_out (old_run_data v x) bs -> read_run_record bs = Ok (seen_run v x).
Proof.
  intros Hv Ha (H1 & H2 & H3 & H4 & H5 & H6) Hs (N & HN & ->). unfold read_run_record. change run_block with (str "RunHeader"). unfold old_run_data in *.
  rewrite (old_single v (str "RunHeader") read_runhdr _ (seen_run v x) N 1 Hv ltac:(reflexivity) Hs HN); [reflexivity|].
  intros r all st Hro. unfold read_runhdr. rewrite good_version by assumption. rewrite (vgt_newer v Hv) by lia.
  eapply frb_none; [apply reads_ret|cbv beta]. cbn [app]. unfold many.
  eapply frb_cons; [apply f_i32; exact H1|cbv beta].
  eapply frb; [apply f_txt; exact H2|cbv beta].
  eapply frb; [apply f_txt; exact H3|cbv beta]. cbn [app].
  eapply frb_cons; [apply f_cnt; exact H4|cbv beta].
  eapply frb; [apply (f_loop_id r r_string txt); intros y Hy; apply f_txt; rewrite Forall_forall in H5; auto|cbv beta].
  eapply frb_last; [apply f_params; exact H6|cbv beta].
  apply fret; reflexivity.
Qed.

Theorem old_header v only names h e bs : version_ok v -> accepted v -> event_ok only h e -> fits (old_header_data v only e) ->
  laid_out (old_header_data v only e) bs -> read_header_record names bs = Ok (seen_header v only names e).
Proof.
  intros Hv Ha He Hs (N & HN & ->). pose proof (stored_hdr_ok only h e He) as Hh. destruct He as (H1 & H2 & H3 & H4 & H5 & H6 & H7 & _).
  unfold read_header_record. change header_block with (str "EventHeader"). unfold old_header_data in *.
  rewrite (old_single v (str "EventHeader") (read_evhdr names) _ (seen_header v only names e) N 1 Hv ltac:(reflexivity) Hs HN); [reflexivity|].
  assert (Hl : Zlen (stored_cols only e) < 2 ^ 28).
  { unfold vec_len in H7. pose proof (filter_len (to_write only) (ev_cols e)) as E. rewrite stored_cols_eq in E. lia. }
  intros r all st Hro. unfold read_evhdr. rewrite good_version by assumption. rewrite (vgt_newer v Hv) by lia.
  eapply frb_none; [apply reads_ret|cbv beta]. cbn [app]. unfold many.
  eapply frb_cons; [apply f_i32; exact H1|cbv beta].
  eapply frb_cons; [apply f_i32; exact H2|cbv beta].
  eapply frb_cons; [eapply fr_of; [exact (g_long (ev_time e))|exact (ri64 (ev_time e) r st H3)]|cbv beta].
  eapply frb; [apply f_txt; exact H4|cbv beta]. cbn [app].
  eapply frb_cons; [apply f_cnt; exact Hl|cbv beta].
  replace (Z.to_nat (Zlen (stored_cols only e))) with (length (stored_cols only e)) by (unfold Zlen; lia).
  eapply frb.
  - eapply fr_of.
    2:{ apply (reads_cols names r st (stored_cols only e) []); [exact Hh|]. cbn [app].
        eapply sm_ok_keys; [|exact (sm_ok_filter (to_write only) _ H6)]. rewrite map_map. reflexivity. }
    apply g_flat. intros nc Hnc. rewrite <- postfix_type. rewrite Forall_forall in Hh. destruct (Hh nc Hnc) as (Q1 & Q2 & ty & Q3).
    destruct (registered_type _ _ Q3) as (_ & Q4 & Q5).
    apply g_app; apply g_txt; [exact Q2|]. unfold header_type. destruct (bit_set _ _); assumption.
  - cbv beta. eapply frb_last; [apply f_params; exact H5|cbv beta]. apply fret; reflexivity.
Qed.

(** ** Versions that are not read *)

Lemma old_throw {A} v name (rd : Z -> RD A) fs N next ex : version_ok v -> small name -> fits (old_block v name fs) ->
  is_sio ex = true -> (forall d, rd (version_word v) d = Throw ex) ->
  read_blocks (layout N (old_block v name fs)) [mkRB name rd] next = Throw EIoFailure.
Proof.
  intros Hv Hn Hs Hex Hr. unfold fits in Hs.
  assert (Hsf : size fs < 2 ^ 32).
  { assert (E : size (old_block v name fs) = 4 + (4 + (4 + (size (txt name) + size fs)))).
    { unfold old_block. cbv zeta. unfold size at 1. cbn [app fold_right field_size]. fold (size (txt name ++ fs)). rewrite size_app. reflexivity. }
    pose proof (size_nonneg (txt name)). lia. }
  destruct (g_calls fs Hsf) as [G K]. set (b := mkWB name (version_word v) (map call_of fs)).
  pose proof (g_old_block v name _ _ Hv Hn G) as GB. fold b in GB.
  assert (Eb : layout N (old_block v name fs) = block_bytes (rhoN N) b).
  { rewrite <- rlay_N, <- (g_bytes _ _ GB), block_bytes_render. reflexivity. }
  assert (Hf : block_fits b).
  { split; [split; [exact Hn|exact K]|]. split; [|apply version_range; exact Hv].
    change two32 with (2 ^ 32). rewrite <- (block_bytes_len (rhoN N) b). rewrite <- block_bytes_render, (g_bytes _ _ GB), rlay_len. exact Hs. }
  rewrite Eb. unfold read_blocks. cbn [read_blocks_loop].
  pose proof (block_bytes_len (rhoN N) b) as Hbl. pose proof (block_len_split b) as Hsp. pose proof (block_hdr_len b) as Hhl.
  pose proof (Zlen_nonneg (padz (wb_name b))). pose proof (Zlen_nonneg (render0 (wb_calls b))).
  destruct (Zlen (block_bytes (rhoN N) b) <=? 0) eqn:E0; [lia|].
  pose proof (extract_block_spec (rhoN N) b [] [] Hf) as Ex. cbn [app] in Ex. rewrite app_nil_r in Ex. change (Zlen []) with 0 in Ex. rewrite Ex.
  cbn [bind bi_end bi_name bi_hlen bi_version]. unfold find_block. cbn [find rb_name wb_name b]. rewrite bytes_eqb_refl.
  unfold r_seek. cbn [r_buf r_cur r_at r_next].
  destruct (Zlen (block_bytes (rhoN N) b) <? Zlen (block_hdr b)) eqn:E2; [lia|]. cbn [bind rb_read wb_version b].
  rewrite Hr. unfold rethrow. rewrite Hex. reflexivity.
Qed.
Lemma bad_version v : version_ok v -> ~ accepted v -> check_version (version_word v) = rthrow EInvalidArgument.
Proof.
  intros Hv H. rewrite old_version by exact Hv. destruct ((fst v <? 1) && (snd v <? 8)) eqn:E; [reflexivity|].
  exfalso. unfold accepted in H. lia.
Qed.
Theorem rejected_run v x bs : version_ok v -> ~ accepted v -> fits (old_run_data v x) ->
  laid_out (old_run_data v x) bs -> read_run_record bs = Throw EIoFailure.
Proof.
  intros Hv Ha Hs (N & HN & ->). unfold read_run_record. change run_block with (str "RunHeader"). unfold old_run_data in *.
  rewrite (old_throw v (str "RunHeader") read_runhdr _ N 1 EInvalidArgument Hv ltac:(reflexivity) Hs eq_refl); [reflexivity|].
  intros d. unfold read_runhdr. rewrite bad_version by assumption. reflexivity.
Qed.
Theorem rejected_header v only names e bs : version_ok v -> ~ accepted v -> fits (old_header_data v only e) ->
  laid_out (old_header_data v only e) bs -> read_header_record names bs = Throw EIoFailure.
Proof.
  intros Hv Ha Hs (N & HN & ->). unfold read_header_record. change header_block with (str "EventHeader"). unfold old_header_data in *.
  rewrite (old_throw v (str "EventHeader") (read_evhdr names) _ N 1 EInvalidArgument Hv ltac:(reflexivity) Hs eq_refl); [reflexivity|].
  intros d. unfold read_evhdr. rewrite bad_version by assumption. reflexivity.
Qed.

(** ** Events *)

Section Event.
Context (srt : forall A : Type, (A -> Z) -> list A -> list A) (v : Z * Z) (Hv : version_ok v) (x : addr -> extra) (h : heap).

Definition lay (nc : bytes * coll) : list field :=
  match get_handler (c_type (snd nc)) with Some ty => old_coll v x ty h (snd nc) | None => [] end.
Definition blk (nc : bytes * coll) : wblock := mkWB (fst nc) (version_word v) (map call_of (lay nc)).
Definition good (nc : bytes * coll) : Prop :=
  vec_len (fst nc) /\ exists ty, get_handler (c_type (snd nc)) = Some ty /\ coll_ok ty h (snd nc) /\ old_coll_ok v x ty h (snd nc).

Lemma block_size name fs : size (old_block v name fs) = 12 + size (txt name) + size fs.
Proof.
  unfold old_block. cbv zeta. unfold size at 1. cbn [app fold_right field_size]. fold (size (txt name ++ fs)). rewrite size_app. lia.
Qed.
Lemma data_cons nc cols : good nc -> old_event_data v x h (nc :: cols) = old_block v (fst nc) (lay nc) ++ old_event_data v x h cols.
Proof. intros (_ & ty & E & _). unfold old_event_data, lay. cbn [flat_map]. rewrite E. reflexivity. Qed.

Lemma g_event cols : Forall good cols -> size (old_event_data v x h cols) < 2 ^ 32 ->
  gives (blocks_calls (map blk cols)) (old_event_data v x h cols) /\ Forall block_fits (map blk cols) /\
  Forall (fun nc => gives (wb_calls (blk nc)) (lay nc)) cols.
Proof.
  induction cols as [|nc cols IH]; intros Hg Hs.
  { split; [exact g_nil|]. split; constructor. }
  inversion Hg as [|? ? Hn Hg']; subst. rewrite data_cons in * by exact Hn. rewrite size_app, block_size in Hs.
  pose proof (size_nonneg (txt (fst nc))). pose proof (size_nonneg (lay nc)). pose proof (size_nonneg (old_event_data v x h cols)).
  destruct (IH Hg' ltac:(lia)) as (G & F & L).
  destruct (g_calls (lay nc) ltac:(lia)) as [G1 K1].
  assert (Hsm : small (fst nc)) by (destruct Hn as [Hn _]; unfold vec_len in Hn; unfold small, two32; lia).
  pose proof (g_old_block v (fst nc) _ _ Hv Hsm G1) as GB.
  split; [|split].
  - cbn [map]. unfold blocks_calls. cbn [flat_map]. apply g_app; [exact GB|exact G].
  - cbn [map]. constructor; [|exact F]. split; [split; [exact Hsm|exact K1]|]. split; [|apply version_range; exact Hv].
    change two32 with (2 ^ 32). rewrite <- (block_bytes_len rho0 (blk nc)). rewrite <- block_bytes_render, (g_bytes _ _ GB), rlay_len, block_size. lia.
  - constructor; assumption.
Qed.

Definition lays (cols : list (bytes * coll)) : list field := flat_map lay cols.
Lemma ids_data cols : Forall good cols -> ids (old_event_data v x h cols) = ids (lays cols).
Proof.
  induction cols as [|nc cols IH]; intros Hg; [reflexivity|]. inversion Hg; subst.
  rewrite data_cons by assumption. unfold lays. cbn [flat_map]. rewrite !ids_app, IH by assumption. f_equal.
Qed.
Lemma targets_app a b : targets (a ++ b) = targets a ++ targets b.
Proof. apply flat_map_app. Qed.

(** the collections read from the blocks, with the words of the file in the place of pointers *)
Definition read_for r new (nc : bytes * coll) (o : bytes * rcoll) : Prop :=
  fst o = fst nc /\ exists ty, get_handler (c_type (snd nc)) = Some ty /\
    snd o = mkRC (stored_flag ty h (snd nc)) (kept (newer v 1 1) (stored_params ty h (snd nc)) no_params)
              (if is_subset (snd nc) then map (ptrw r) (c_elems (snd nc)) else map new (c_elems (snd nc)))
              (if is_subset (snd nc) then []
               else old_copies v srt new (ptrw r) (stored_flag ty h (snd nc)) (stores_fixed ty h (snd nc)) h (c_elems (snd nc))).

Lemma old_blocks_read r all new names H : rho_ok all r -> forall cols,
  Forall good cols -> Forall (fun nc => gives (wb_calls (blk nc)) (lay nc)) cols ->
  (forall nc, In nc cols -> if wanted names (fst nc)
     then find_block (fst nc) H = Some (mkRB (fst nc) (fun vers => match get_handler (c_type (snd nc)) with
                                         | Some ty => read_coll srt ty vers | None => rub UBNullDeref end))
     else find_block (fst nc) H = None) ->
  forall at_ n,
  numbers new (flat_map (fun nc => coll_objs h (snd nc)) (filter (fun nc => wanted names (fst nc)) cols)) n ->
  exists out,
  blocks_read H r (map blk cols) (at_, n)
    (ids_state r new (ids (lays (filter (fun nc => wanted names (fst nc)) cols))) at_,
     n + Zlen (flat_map (fun nc => coll_objs h (snd nc)) (filter (fun nc => wanted names (fst nc)) cols))) out /\
  Forall2 (read_for r new) (filter (fun nc => wanted names (fst nc)) cols) out.
Proof.
  intros Hro cols. induction cols as [|nc cols IH]; intros Hg Hl Hin at_ n Hnum.
  { exists []. cbn [filter flat_map map]. change (Zlen (@nil addr)) with 0. rewrite Z.add_0_r. split; [apply BR_nil|constructor]. }
  inversion Hg as [|? ? Hgn Hg']; subst. inversion Hl as [|? ? Hln Hl']; subst.
  pose proof (Hin nc (or_introl eq_refl)) as Hf. assert (Hin' := fun y Hy => Hin y (or_intror Hy)).
  destruct Hgn as (_ & ty & Hty & Hc & Ho). cbn [filter map] in *. destruct (wanted names (fst nc)) eqn:Ew.
  - cbn [flat_map] in *. apply numbers_app in Hnum. destruct Hnum as [Hn1 Hn2].
    destruct (IH Hg' Hl' Hin' (ids_state r new (ids (lay nc)) at_) (n + Zlen (coll_objs h (snd nc))) Hn2) as (out & Hbr & Fo).
    pose proof (old_reads_coll r all Hro v Hv srt ty x h (snd nc) new (at_, n) Hc Ho Hn1) as Rd. cbn [fst snd] in Rd.
    assert (El : lay nc = old_coll v x ty h (snd nc)) by (unfold lay; rewrite Hty; reflexivity).
    rewrite <- El in Rd. rewrite <- (g_bytes _ _ Hln) in Rd.
    eexists. split.
    + eapply BR_read; [exact Hf| |].
      * cbn [rb_read]. change (wb_version (blk nc)) with (version_word v). rewrite Hty. exact Rd.
      * unfold lays. cbn [flat_map]. rewrite ids_app, ids_state_app, Zlen_app, Z.add_assoc. exact Hbr.
    + constructor; [|exact Fo]. split; [reflexivity|]. exists ty. cbn [snd]. auto.
  - destruct (IH Hg' Hl' Hin' at_ n Hnum) as (out & Hbr & Fo). exists out. split; [|exact Fo].
    apply BR_skip; assumption.
Qed.

(** after relocation *)
Definition read_reloc new tgt (nc : bytes * coll) (o : bytes * rcoll) : Prop :=
  fst o = fst nc /\ exists ty, get_handler (c_type (snd nc)) = Some ty /\
    snd o = mkRC (stored_flag ty h (snd nc)) (kept (newer v 1 1) (stored_params ty h (snd nc)) no_params)
              (map (elem_map new tgt (is_subset (snd nc))) (c_elems (snd nc)))
              (if is_subset (snd nc) then []
               else old_copies v srt new tgt (stored_flag ty h (snd nc)) (stores_fixed ty h (snd nc)) h (c_elems (snd nc))).

Lemma reloc_old all r new ts a : rho_ok all r -> incl ts (tags all) -> a = 0 \/ In a (ptrs all) ->
  reloc_ptr (ids_state r new ts []) (ptrw r a) = target new ts a.
Proof.
  intros Hro Hi [->|Ha]; [|apply (reloc_read all); assumption].
  rewrite (ro_null all r Hro). unfold target, reloc_ptr. reflexivity.
Qed.

Lemma old_relocated r all new ts nc o :
  rho_ok all r -> incl ts (tags all) -> good nc -> (forall a, In a (targets (lay nc)) -> In a (ptrs all)) ->
  read_for r new nc o ->
  read_reloc new (target new ts) nc (fst o, reloc_rcoll (ids_state r new ts []) (snd o)).
Proof.
  intros Hro Hincl (_ & ty & Hty & Hc & Ho) Hp (Hn & ty' & Hty' & E). rewrite Hty in Hty'. injection Hty' as <-.
  split; [exact Hn|]. exists ty. split; [exact Hty|]. cbn [snd]. rewrite E.
  unfold reloc_rcoll. cbn [rc_flag rc_par rc_elems rc_objs]. change (bit_set (stored_flag ty h (snd nc)) BITSubset) with (Z.testbit (stored_flag ty h (snd nc)) 18).
  rewrite stored_flag_subset. unfold lay in Hp. rewrite Hty in Hp. unfold old_coll in Hp. cbv zeta in Hp.
  destruct (is_subset (snd nc)) eqn:Es.
  - f_equal. rewrite map_map. apply map_ext_in. intros a Ha. apply (reloc_old all); auto. right. apply Hp.
    rewrite !targets_app. apply in_or_app. right. apply in_or_app. right. apply in_or_app. right.
    apply in_targets. unfold many. right. apply ref_in. exact Ha.
  - f_equal. unfold old_copies. rewrite map_flat_map. apply flat_map_ext_in. intros a Ha.
    destruct (h a) as [y|] eqn:Ey; [|reflexivity]. cbn [map fst snd]. f_equal. f_equal. unfold old_copy.
    rewrite map_refs_map_refs. apply map_refs_ext. intros b Hb. rewrite refs_resort, refs_map_owned in Hb.
    apply (reloc_old all); [exact Hro|exact Hincl|].
    destruct (old_init rho0 v Hv ty h (snd nc) Hc (proj1 Ho)) as (hs & [F1 F2 F3 F4] & Halg & _).
    pose proof Hc as (_ & _ & _ & _ & Hel & _). destruct (Hel Es) as [Ht He].
    destruct (Ht a Ha) as (_ & y' & Hy' & Hto). rewrite Ey in Hy'. injection Hy' as <-.
    destruct (proj2 Ho Es a y Ha Ey) as [Hx Hof].
    rewrite <- F1, <- F2 in Hb.
    destruct (refs_seen v ty x hs a y b (F4 a y Ha Ey Hto (He a y Ha Ey)) Hto Hof Hb) as [Hz|Hz]; [left; exact Hz|right].
    apply Hp. rewrite !targets_app. apply in_or_app. right. apply in_or_app. right. apply in_or_app. right.
    apply in_targets. unfold many. right. apply in_flat_map. exists a. split; [exact Ha|]. rewrite Ey.
    rewrite F1, F2 in Hz. rewrite (old_layout_flag v x ty h (snd nc) y (h_algs hs) _ a Hto Halg) in Hz. exact Hz.
Qed.

Lemma old_heap new tgt cols out objs : NoDup objs -> (forall a b, In a objs -> In b objs -> new a = new b -> a = b) ->
  objs = flat_map (fun nc => coll_objs h (snd nc)) cols ->
  Forall2 (read_reloc new tgt) cols out ->
  forall nc ty a o, In nc cols -> get_handler (c_type (snd nc)) = Some ty -> is_subset (snd nc) = false -> In a (c_elems (snd nc)) -> h a = Some o ->
  heap_of (flat_map (fun x => rc_objs (snd x)) out) (new a)
  = Some (old_copy srt v new tgt (stored_flag ty h (snd nc)) (stores_fixed ty h (snd nc)) o).
Proof.
  intros Hnd Hinj Ho F nc ty a o Hnc Hty Hs Ha Hh. unfold heap_of.
  assert (P : part (map fst (flat_map (fun x => rc_objs (snd x)) out)) (map new objs)).
  { subst objs. clear -F. rewrite map_flat_map. induction F as [|nc o cols out (_ & ty & Hty & E) F IH]; [exists []; constructor|].
    cbn [flat_map]. destruct IH as (r2 & P2). rewrite map_app.
    assert (part (map fst (rc_objs (snd o))) (map new (coll_objs h (snd nc)))) as (r1 & P1).
    { rewrite E. cbn [rc_objs]. unfold coll_objs. destruct (is_subset (snd nc)); [exists []; constructor|].
      unfold old_copies, own_objs. rewrite !map_flat_map. apply part_flat_map. intros a _. destruct (h a) as [y|]; cbn [map fst].
      - exists (map new (owned y)). apply Permutation_refl.
      - exists [new a]. apply Permutation_refl. }
    exists (r1 ++ r2). rewrite P1, P2. rewrite <- !app_assoc. apply Permutation_app_head. rewrite !app_assoc.
    apply Permutation_app_tail. apply Permutation_app_comm. }
  destruct (Forall2_in_l _ _ _ _ F Hnc) as (y & Hy & _ & ty' & Hty' & E). rewrite Hty in Hty'. injection Hty' as <-.
  apply assoc_nodup.
  - apply (part_NoDup _ _ P). apply NoDup_map_inj; assumption.
  - apply in_flat_map. exists y. split; [exact Hy|]. rewrite E, Hs. cbn [rc_objs]. unfold old_copies. apply in_flat_map.
    exists a. split; [exact Ha|]. rewrite Hh. left. reflexivity.
Qed.

Lemma old_filled new tgt cols out : NoDup (map fst cols) ->
  Forall2 (read_reloc new tgt) cols out ->
  Forall2 (old_as v h new tgt) cols (filled (map bare cols) out).
Proof.
  intros Hnd F. unfold filled. rewrite map_map.
  assert (Hno : NoDup (map fst out)) by (rewrite (Forall2_map_fst _ _ _ (fun x y H => proj1 H) F); exact Hnd).
  assert (G : forall nc, In nc cols -> old_as v h new tgt nc
    (fst (bare nc), match last_of (fst (bare nc)) out with
      | Some rc => mkColl (c_type (snd (bare nc))) (rc_flag rc) (rc_par rc) (rc_elems rc) | None => snd (bare nc) end)).
  { intros nc Hnc. destruct (Forall2_in_l _ _ _ _ F Hnc) as ([n rc] & Hx & Hn & ty & Hty & E). cbn [fst snd] in Hn, E.
    cbn [bare fst snd]. rewrite <- Hn. rewrite (last_of_in n rc out Hno Hx). rewrite E.
    split; [exact Hn|]. split; [reflexivity|]. exists ty. cbn. auto. }
  clear -G. induction cols as [|nc cols IH]; [constructor|]. cbn [map]. constructor; [apply G; left; reflexivity|].
  apply IH. intros y Hy. apply G. right. exact Hy.
Qed.

Theorem old_event only names e bs new next :
  event_ok only h e ->
  (forall nc ty, In nc (stored_cols only e) -> get_handler (c_type (snd nc)) = Some ty -> old_coll_ok v x ty h (snd nc)) ->
  fits (old_event_data v x h (stored_cols only e)) -> laid_out (old_event_data v x h (stored_cols only e)) bs ->
  numbers new (event_objs only names h e) next ->
  exists tgt e' h', refers_to v x h (read_back only names e) new tgt /\
    read_event_record srt bs (seen_header v only names e) next = Ok (e', h', next + Zlen (event_objs only names h e)) /\
    same_header (seen_header v only names e) e' /\
    Forall2 (old_as v h new tgt) (read_back only names e) (ev_cols e') /\
    (forall nc ty a o, In nc (read_back only names e) -> get_handler (c_type (snd nc)) = Some ty ->
       is_subset (snd nc) = false -> In a (c_elems (snd nc)) -> h a = Some o ->
       h' (new a) = Some (old_copy srt v new tgt (stored_flag ty h (snd nc)) (stores_fixed ty h (snd nc)) o)).
Proof.
  intros He Hold Hs (N & HN & ->) Hnum. pose proof He as (H1 & H2 & H3 & H4 & H5 & H6 & H7 & H8 & H9).
  assert (Hg : Forall good (stored_cols only e)).
  { apply Forall_forall. intros nc Hnc. rewrite Forall_forall in H8. destruct (H8 nc Hnc) as (_ & Hl & ty & Hty & Hc).
    split; [exact Hl|]. exists ty. split; [exact Hty|]. split; [exact Hc|]. apply Hold; assumption. }
  destruct (g_event _ Hg Hs) as (G & Hfit & Hl).
  pose proof (rhoN_ok N _ _ G HN) as Hro.
  assert (Eb : layout N (old_event_data v x h (stored_cols only e)) = blocks_bytes (rhoN N) (map blk (stored_cols only e))).
  { rewrite <- rlay_N, <- (g_bytes _ _ G), blocks_bytes_render. reflexivity. }
  assert (Hnames : NoDup (map fst (stored_cols only e))).
  { apply NoDup_map_filter. apply str_sorted_nodup. exact H6. }
  assert (Hhn : NoDup (map rb_name (coll_handlers srt (map bare (read_back only names e))))).
  { unfold coll_handlers. rewrite !map_map. cbn [rb_name]. apply NoDup_map_filter. exact Hnames. }
  destruct (old_blocks_read (rhoN N) _ new names (coll_handlers srt (map bare (read_back only names e))) Hro
    (stored_cols only e) Hg Hl) with (at_ := @nil (Z * addr)) (n := next) as (out & Hbr & Fo).
  { intros nc Hnc. destruct (wanted names (fst nc)) eqn:Ewa.
    - set (hd := mkRB (fst nc) (fun vers => match get_handler (c_type (snd nc)) with Some ty => read_coll srt ty vers | None => rub UBNullDeref end)).
      apply (find_block_in _ hd Hhn). unfold coll_handlers. rewrite map_map.
      apply (in_map (fun x => mkRB (fst (bare x)) (fun vers => match get_handler (c_type (snd (bare x))) with Some ty => read_coll srt ty vers | None => rub UBNullDeref end))).
      apply filter_In. auto.
    - apply find_block_none. unfold coll_handlers. rewrite !map_map. cbn [rb_name]. intros Hin. apply in_map_iff in Hin.
      destruct Hin as (y & Ey & Hy). apply filter_In in Hy. destruct Hy as [_ Hy]. cbn [bare fst] in Ey. congruence. }
  { exact Hnum. }
  fold (read_back only names e) in Hbr, Fo. fold (event_objs only names h e) in Hbr.
  pose proof (read_blocks_spec _ _ _ _ _ _ Hbr Hfit) as Erd. cbn [fst snd] in Erd.
  assert (Hgr : Forall good (read_back only names e)).
  { apply Forall_forall. intros nc Hnc. apply filter_In in Hnc. rewrite Forall_forall in Hg. apply Hg. apply Hnc. }
  set (ts := ids (lays (read_back only names e))) in *.
  set (at_ := ids_state (rhoN N) new ts []) in *.
  assert (Hincl : incl ts (tags (blocks_calls (map blk (stored_cols only e))))).
  { rewrite (g_tags _ _ G), ids_data by exact Hg. unfold ts. intros a Ha. apply in_ids in Ha. apply in_ids.
    unfold lays in *. apply in_flat_map in Ha. destruct Ha as (nc & Hnc & Ha). apply filter_In in Hnc.
    apply in_flat_map. exists nc. split; [apply Hnc|exact Ha]. }
  assert (Fr : Forall2 (read_reloc new (target new ts)) (read_back only names e)
                 (map (fun x => (fst x, reloc_rcoll at_ (snd x))) out)).
  { apply Forall2_map_r. eapply Forall2_impl_in; [|exact Fo]. intros nc o Hnc _ Hon.
    apply (old_relocated (rhoN N) (blocks_calls (map blk (stored_cols only e))) new ts nc o Hro Hincl); [|..|exact Hon].
    - rewrite Forall_forall in Hgr. apply Hgr. exact Hnc.
    - intros a Ha. rewrite (g_ptrs _ _ G). apply in_targets in Ha. apply in_targets.
      apply filter_In in Hnc. destruct Hnc as [Hnc _]. rewrite Forall_forall in Hg. destruct (Hg nc Hnc) as (_ & ty & Hty & _).
      unfold lay in Ha. rewrite Hty in Ha. unfold old_event_data. apply in_flat_map. exists nc. split; [exact Hnc|]. rewrite Hty.
      unfold old_block. cbv zeta. right. apply in_or_app. right. apply in_or_app. right. exact Ha. }
  exists (target new ts). do 2 eexists. split; [|split; [|split; [|split]]].
  2:{ rewrite Eb. unfold read_event_record. cbn [seen_header ev_cols]. fold bare. change (map (fun nc => (fst nc, mkColl (c_type (snd nc)) 0 no_params [])) (read_back only names e)) with (map bare (read_back only names e)).
      rewrite Erd. cbn [bind].
      assert (Rp : repeats (map fst out) = false).
      { apply nodup_repeats. replace (map fst out) with (map fst (read_back only names e)); [apply NoDup_map_filter; exact Hnames|].
        pose proof (Forall2_map_fst _ _ _ (fun x y H => proj1 H) Fr) as Em. rewrite map_map in Em. symmetry. exact Em. }
      rewrite Rp. reflexivity. }
  - intros a. unfold target, numbered_objs. rewrite <- in_ids, (ids_data _ Hgr). fold ts. split.
    + intros A0 A1. destruct (a =? 0) eqn:E; [lia|]. destruct (in_dec Z.eq_dec a ts); [reflexivity|contradiction].
    + intros [->|A1]; [reflexivity|]. destruct (a =? 0); [reflexivity|]. destruct (in_dec Z.eq_dec a ts); [contradiction|reflexivity].
  - split; [reflexivity|]. split; [reflexivity|]. split; [reflexivity|]. split; reflexivity.
  - cbn [ev_cols]. apply old_filled; [|exact Fr]. apply NoDup_map_filter. exact Hnames.
  - eapply old_heap; [|exact (numbers_inj _ _ _ Hnum)|reflexivity|exact Fr].
    unfold event_objs, read_back. apply NoDup_flat_map_filter. exact H9.
Qed.

End Event.
