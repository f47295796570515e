(** * Writing from several threads: proofs *)

From Coq Require Import Permutation.
From Verif Require Import Bytes StrMap ListFacts SioModel SioSpec SioProofs SioRecord SioFrame Ieee ObjModel ObjSpec EventModel EventSpec EventProofs EventFacts IndexModel IndexSpec
  FileModel FileSpec FileFrame FileWrite FileSessions SplitSpec SplitProofs ThreadModel ThreadSpec.

(** ** Lists *)

Lemma update_len {A} (l : list A) : forall k x, length (update l k x) = length l.
Proof. induction l as [|y l IH]; intros [|k] x; cbn [update length]; auto. Qed.
Lemma update_same {A} (l : list A) : forall k x y, nth_error l k = Some y -> nth_error (update l k x) k = Some x.
Proof. induction l as [|z l IH]; intros [|k] x y; cbn; try discriminate; [reflexivity|apply IH]. Qed.
Lemma update_other {A} (l : list A) : forall k j x, j <> k -> nth_error (update l k x) j = nth_error l j.
Proof. induction l as [|z l IH]; intros [|k] [|j] x H; cbn; try congruence; auto. Qed.
Lemma update_id {A} (l : list A) : forall k x, nth_error l k = Some x -> update l k x = l.
Proof. induction l as [|z l IH]; intros [|k] x; cbn; try discriminate; [congruence|]. intros H. rewrite IH by exact H. reflexivity. Qed.
Fixpoint sum_of {A} (f : A -> nat) (l : list A) : nat := match l with [] => 0 | x :: l' => f x + sum_of f l' end.
Lemma sum_update {A} (f : A -> nat) (l : list A) : forall k x y, nth_error l k = Some y -> (sum_of f (update l k x) + f y = sum_of f l + f x)%nat.
Proof.
  induction l as [|z l IH]; intros [|k] x y; cbn; try discriminate.
  - intros H. injection H as ->. lia.
  - intros H. specialize (IH k x y H). lia.
Qed.
Lemma sum_member {A} (f : A -> nat) (l : list A) : forall k y, nth_error l k = Some y -> (f y <= sum_of f l)%nat.
Proof.
  induction l as [|z l IH]; intros [|k] y; cbn; try discriminate.
  - intros H. injection H as ->. lia.
  - intros H. specialize (IH k y H). lia.
Qed.

Lemma filter_split {A} (f : A -> bool) l : Permutation l (filter f l ++ filter (fun x => negb (f x)) l).
Proof.
  induction l as [|x l IH]; [constructor|]. cbn [filter]. destruct (f x); cbn [negb app]; [constructor; exact IH|].
  apply Permutation_cons_app. exact IH.
Qed.
Lemma filter_filter_eq (k j : nat) (l : list entry) : j <> k ->
  filter (fun x => Nat.eqb (fst x) j) (filter (fun x => negb (Nat.eqb (fst x) k)) l) = filter (fun x => Nat.eqb (fst x) j) l.
Proof.
  intros H. induction l as [|x l IH]; [reflexivity|]. cbn [filter]. destruct (Nat.eqb_spec (fst x) k) as [E|E]; cbn [negb].
  - rewrite IH. destruct (Nat.eqb_spec (fst x) j); [congruence|reflexivity].
  - cbn [filter]. rewrite IH. reflexivity.
Qed.
(** the items of a log, thread by thread *)
Lemma log_perm_from (ls : list (list witem)) : forall k (log : list entry),
  Forall (fun x => (k <= fst x < k + length ls)%nat) log ->
  (forall t l, nth_error ls t = Some l -> of_thread (k + t) log = l) ->
  Permutation (map (fun x => snd (snd x)) log) (concat ls).
Proof.
  induction ls as [|l ls IH]; intros k log F H.
  - destruct log as [|x log]; [constructor|]. inversion F as [|a b Hx _]; subst. cbn [length] in Hx. lia.
  - cbn [concat]. rewrite (Permutation_map _ (filter_split (fun x => Nat.eqb (fst x) k) log)), map_app.
    apply Permutation_app.
    + specialize (H 0%nat l eq_refl). rewrite Nat.add_0_r in H. unfold of_thread in H. rewrite H. reflexivity.
    + apply (IH (S k)).
      * apply Forall_forall. intros x Hx. apply filter_In in Hx. destruct Hx as [Hx E]. rewrite Forall_forall in F. specialize (F x Hx). cbn [length] in F.
        destruct (Nat.eqb_spec (fst x) k); [discriminate|]. lia.
      * intros t m Hm. replace (S k + t)%nat with (k + S t)%nat by lia. rewrite <- (H (S t) m Hm). unfold of_thread. rewrite filter_filter_eq by lia. reflexivity.
Qed.
Lemma log_perm (ls : list (list witem)) (log : list entry) : Forall (fun x => (fst x < length ls)%nat) log ->
  (forall t l, nth_error ls t = Some l -> of_thread t log = l) -> Permutation (map (fun x => snd (snd x)) log) (concat ls).
Proof.
  intros F H. apply (log_perm_from ls 0).
  - eapply Forall_impl; [|exact F]. cbn beta. intros x Hx. lia.
  - exact H.
Qed.
Lemma of_thread_snoc t u zi log : of_thread t (log ++ [(u, zi)]) = of_thread t log ++ (if Nat.eqb u t then [snd zi] else []).
Proof. unfold of_thread. rewrite filter_app, map_app. cbn [filter fst]. destruct (Nat.eqb u t); reflexivity. Qed.

(** ** Records *)

Lemma lab_nonzero z : lab z <> 0.
Proof. unfold lab. destruct (Z.ltb_spec z 0); lia. Qed.
Lemma unlab_lab z : unlab (lab z) = z.
Proof. unfold lab, unlab. destruct (Z.ltb_spec z 0) as [H|H]; [destruct (Z.ltb_spec z 0); lia|destruct (Z.ltb_spec (z + 1) 0); lia]. Qed.
Lemma codec_labelled comp uncomp : codec_all comp uncomp -> codec_ok (labelled_comp comp) uncomp.
Proof. intros H z d _. apply H. Qed.
Lemma sized_any z n : sized 1 n -> sized z n.
Proof. intros [A B]. split; [exact A|]. intros _. apply B. lia. Qed.
Lemma item_ok_any z i : item_ok (1, i) -> item_ok (z, i).
Proof.
  destruct i as [r|h e only]; cbn [item_ok fst snd].
  - intros [A B]. split; [exact A|]. apply sized_any. exact B.
  - intros (A & B & C). split; [exact A|]. split; [apply sized_any; exact B|]. intros bs cols E. apply sized_any. exact (C bs cols E).
Qed.
Lemma new_buffer_ok n : 0 < n -> exists b, new_buffer n = Ok b /\ usable b.
Proof.
  intros H. unfold new_buffer. destruct (Z.eqb_spec n 0); [lia|]. eexists. split; [reflexivity|]. split; [reflexivity|]. cbn [b_bytes].
  destruct (Z.to_nat n) eqn:E; [lia|]. discriminate.
Qed.

Section Codec.
Context (comp : Z -> bytes -> bytes) (uncomp : bytes -> option bytes) (b1 b2 : buffer).
Context (HC : codec_all comp uncomp) (U1 : usable b1) (U2 : usable b2).
Notation C := (labelled_comp comp).

Lemma encode_plain ri b : encode C 0 ri b = Ok (plain_text (ri, b)).
Proof. reflexivity. Qed.
Lemma encode_comp z ri b : encode C (lab z) ri b = comp_text comp z (ri, b).
Proof.
  unfold encode, comp_text, labelled_comp. rewrite unlab_lab. pose proof (lab_nonzero z) as H. apply Z.eqb_neq in H. rewrite H. cbn [negb fst snd]. reflexivity.
Qed.

(** [recs] are the records of the item [i] with the label [n] *)
Definition records (n : Z) (i : witem) (recs : list bytes) : Prop := exists i', encode_item C n b1 b2 i = Ok (recs, item_key i, i').
Definition raws_ok (i : witem) (key : runevt) (raws : list (record_info * buffer)) : Prop :=
  key = item_key i /\ (length raws <= 2)%nat /\ 0 < last_size raws < two32 /\
  (exists i', encode_item C 0 b1 b2 i = Ok (map plain_text raws, item_key i, i')) /\
  forall z, exists recs, comp_texts comp z raws = Ok recs /\ (length recs <= 2)%nat /\ records (lab z) i recs.

Lemma shape_size name d (blks : list wblock) : rec_hlen name + Zlen d = record_size name blks -> record_size name blks + 3 < two32 -> Zlen name <= 64 ->
  0 < Zlen (rec_hdr 0 (Zlen d) (Zlen d) name ++ d) < two32.
Proof. intros H1 H2 H3. rewrite Zlen_app, rec_hdr_len. destruct (rec_hlen_range name H3). pose proof (Zlen_nonneg d). lia. Qed.

Lemma raw_item_ok n i : 0 < n -> item_ok (1, i) -> exists raws, raw_item n i = Ok (raws, item_key i) /\ raws_ok i (item_key i) raws.
Proof.
  intros Hn Hi. destruct (new_buffer_ok n Hn) as (b & Eb & Ub). pose proof (codec_labelled comp uncomp HC) as HC'.
  assert (HR : forall z, exists recs, records (lab z) i (map f_bytes recs)).
  { intros z. destruct (item_spec C uncomp (lab z) i b1 b2 HC' U1 U2 (item_ok_any _ _ Hi)) as (recs & s & i' & E & _). exists recs, i'. exact E. }
  destruct i as [r|h e only]; cbn [item_ok fst snd] in Hi; cbn [raw_item item_key].
  - destruct Hi as [Hr Hs].
    destruct (one_block run_record run_block (write_runhdr r)) as (d & E0 & Hm & Hl); try assumption; try reflexivity.
    { apply data_runhdr. exact Hr. } { destruct Hs; lia. }
    rewrite Eb. cbn [bind]. unfold write_run_record. rewrite (E0 b Ub). cbn [bind]. eexists. split; [reflexivity|].
    split; [reflexivity|]. split; [cbn; lia|]. split; [cbn [last_size fold_left snd b_bytes]; eapply shape_size; [exact Hl|apply Hs|vm_compute; discriminate]|].
    assert (EE : forall m, encode_item C m b1 b2 (WRun r) =
      (do x <- encode C m (mkRI 0 0 (rec_hlen run_record) 0 (Zlen d) (Zlen d) run_record) (mkBuffer (rec_hdr 0 (Zlen d) (Zlen d) run_record ++ d) true); Ok ([x], (rh_run r, -1), WRun r))).
    { intros m. unfold encode_item, write_run_record. rewrite (E0 b1 U1). cbn [bind]. reflexivity. }
    split.
    + exists (WRun r). rewrite EE, encode_plain. reflexivity.
    + intros z. destruct (HR z) as (recs & i' & E). pose proof E as E'. rewrite EE, encode_comp in E. cbn [comp_texts].
      destruct (comp_text comp z _) as [x|x|x]; cbn [bind] in E; [|discriminate|discriminate]. cbn [bind]. exists [x]. split; [reflexivity|]. split; [cbn; lia|].
      exists i'. rewrite E'. injection E as <- _. reflexivity.
  - destruct Hi as (He & Hs1 & Hs2).
    destruct (one_block header_record header_block (write_evhdr only e)) as (d & E0 & Hm & Hl); try assumption; try reflexivity.
    { eapply data_evhdr. exact He. } { destruct Hs1; lia. }
    destruct (event_shape only h e He) as (e1 & d2 & bs & cols & Ee0 & Ebs & Hm2 & Hl2).
    { intros bs cols Ebs. destruct (Hs2 bs cols Ebs). lia. }
    rewrite Eb. cbn [bind]. unfold write_header_record. rewrite (E0 b Ub). cbn [bind]. rewrite (Ee0 b Ub). cbn [bind]. eexists. split; [reflexivity|].
    split; [reflexivity|]. split; [cbn; lia|]. split; [cbn [last_size fold_left snd b_bytes]; eapply shape_size; [exact Hl2|apply (Hs2 _ _ Ebs)|vm_compute; discriminate]|].
    assert (EE : forall m, encode_item C m b1 b2 (WEvt h e only) =
      (do x <- encode C m (mkRI 0 0 (rec_hlen header_record) 0 (Zlen d) (Zlen d) header_record) (mkBuffer (rec_hdr 0 (Zlen d) (Zlen d) header_record ++ d) true);
       do y <- encode C m (mkRI 0 0 (rec_hlen event_record) 0 (Zlen d2) (Zlen d2) event_record) (mkBuffer (rec_hdr 0 (Zlen d2) (Zlen d2) event_record ++ d2) true);
       Ok ([x; y], (ev_run e, ev_num e), WEvt h e1 only))).
    { intros m. unfold encode_item, write_header_record. rewrite (E0 b1 U1). cbn [bind]. rewrite (Ee0 b2 U2). cbn [bind]. reflexivity. }
    split.
    + exists (WEvt h e1 only). rewrite EE, !encode_plain. reflexivity.
    + intros z. destruct (HR z) as (recs & i' & E). pose proof E as E'. rewrite EE, !encode_comp in E. cbn [comp_texts].
      destruct (comp_text comp z _) as [x|x|x]; cbn [bind] in E; [|discriminate|discriminate].
      destruct (comp_text comp z _) as [y|y|y]; cbn [bind] in E; [|discriminate|discriminate]. cbn [bind]. exists [x; y]. split; [reflexivity|]. split; [cbn; lia|].
      exists i'. rewrite E'. injection E as <- _. reflexivity.
Qed.

End Codec.
