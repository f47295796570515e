(** * Properties C01-C05: devices, links, records, blocks *)

From Coq Require Import Permutation.
From Verif Require Import Bytes SioModel SioProofs SioRecord SioRead SioFrame SioSpec.

(** ** C01 *)

(** Any sequence of primitive values is read back from the written bytes (whatever follows
    them in the span), and reading ends where writing ended. *)
Theorem C01_primitives_roundtrip : forall buf vs at_ next,
  b_valid buf = true -> b_bytes buf <> [] -> Forall pval_ok vs ->
  exists d', dev_calls (mkW buf 0 [] []) (flat_map put_val vs) = Ok d' /\
    forall span rest, span = firstn (Z.to_nat (w_cur d')) (b_bytes (w_buf d')) ++ rest ->
      get_all vs (mkR span 0 at_ next) = Ok (vs, mkR span (w_cur d') at_ next).
Proof. exact prim_roundtrip. Qed.
Print Assumptions C01_primitives_roundtrip.

(** Every element starts on a multiple of four (apply to every prefix of the sequence). *)
Theorem C01_elements_aligned : forall buf vs d',
  b_valid buf = true -> b_bytes buf <> [] -> Forall pval_ok vs ->
  dev_calls (mkW buf 0 [] []) (flat_map put_val vs) = Ok d' -> w_cur d' mod 4 = 0.
Proof. exact prim_aligned. Qed.
Print Assumptions C01_elements_aligned.

Definition ex_vals : list pval :=
  [PU8 200; PI32 (-7); PStr (str "abcde"); PVec 2 [1; 65535; 3]; PVec 8 []; PF64 4607182418800017408;
   PStrs [str "x"; []]; PArr 4 [1; 2]; PI64 (-9223372036854775808)].
Example C01_case : b_valid (mkBuffer [x00] true) = true /\ b_bytes (mkBuffer [x00] true) <> [] /\
  Forall pval_ok ex_vals.
Proof.
  split; [reflexivity|]. split; [discriminate|].
  repeat constructor; try (cbn; lia); cbn [In]; auto; vm_compute; reflexivity.
Qed.

(** Reading an empty vector into a variable that already holds elements leaves these elements:
    the round trip needs a fresh target. *)
Theorem C01_empty_vector_into_used_target_refuted : exists old d,
  r_vec 4 old d = Ok (old, mkR (r_buf d) 4 [] 1) /\ old <> [] /\
  r_buf d = render0 (w_vec 4 []).
Proof. exists [7], (mkR (render0 (w_vec 4 [])) 0 [] 1). split; [reflexivity|]. split; [discriminate|reflexivity]. Qed.
Print Assumptions C01_empty_vector_into_used_target_refuted.

(** ** C02 *)

Theorem C02_growth_preserves_bytes : forall cap os b0,
  0 < cap -> new_buffer cap = Ok b0 -> ops_ok [] os ->
  exists d', dev_ops (mkW b0 0 [] []) os = Ok d' /\
    w_cur d' = Zlen (fold_left spec_op os []) /\
    firstn (Z.to_nat (w_cur d')) (b_bytes (w_buf d')) = fold_left spec_op os [].
Proof. exact growth_spec. Qed.
Print Assumptions C02_growth_preserves_bytes.

Example C02_case : 0 < 1 /\ new_buffer 1 = Ok (mkBuffer [x00] true) /\
  ops_ok [] [OWrite (str "header"); OWrite (str "abc"); OPatch 4 (str "xy"); OWrite (str "z"); OPatch 0 (str "HEAD")].
Proof. split; [lia|]. split; [reflexivity|]. cbn -[Z.pow]. repeat split; try lia; vm_compute; congruence. Qed.

(** ** C03 *)

Theorem C03_links_restored : forall name rec_buf blks opts new next,
  valid_record_name name = true -> b_valid rec_buf = true -> b_bytes rec_buf <> [] ->
  blocks_ok blks -> NoDup (map wb_name blks) -> NoDup (blocks_tags blks) ->
  record_size name blks < two32 ->
  exists ri buf out at_ next',
    write_record name rec_buf blks opts = Ok (ri, buf) /\
    read_blocks (skipn (Z.to_nat (ri_hlen ri)) (b_bytes buf)) (shape_handlers new blks) next
      = Ok (out, at_, next') /\
    map (fun nm => (fst nm, map (reloc_ptr at_) (snd nm))) out
      = map (fun b => (wb_name b, map (target new (blocks_tags blks)) (ptrs (wb_calls b)))) blks.
Proof. exact record_links. Qed.
Print Assumptions C03_links_restored.

(** Two blocks with a cycle, a forward reference, a shared target, a null pointer and a
    pointer to an object (99) that is not stored. *)
Definition ex_blocks : list wblock :=
  [mkWB (str "A") 1 [DTag 10; DPtr 20; DPtr 0; DTag 11; DPtr 10; DPtr 99];
   mkWB (str "B") 2 [DData (str "xyz"); DTag 20; DPtr 10; DPtr 20; DPtr 11]].
Example C03_case : valid_record_name (str "Rec") = true /\ blocks_ok ex_blocks /\
  NoDup (map wb_name ex_blocks) /\ NoDup (blocks_tags ex_blocks) /\ record_size (str "Rec") ex_blocks < two32.
Proof.
  split; [reflexivity|]. split.
  { repeat constructor; vm_compute; congruence. }
  split. { cbn. repeat constructor; cbn; intuition discriminate. }
  split. { cbn. repeat constructor; cbn; intuition discriminate. }
  vm_compute. reflexivity.
Qed.
Example C03_case_result :
  map (fun b => (wb_name b, map (target (fun a => a + 1000) (blocks_tags ex_blocks)) (ptrs (wb_calls b)))) ex_blocks
  = [(str "A", [1020; 0; 1010; 0]); (str "B", [1010; 1020; 1011])].
Proof. reflexivity. Qed.

(** An object that is tagged twice in one record (it is written by two owning collections):
    the second tag stays "not referenced", so a reader gets two copies and all pointers go to
    the first one. *)
Theorem C03_object_written_twice_refuted : exists blks ri buf out at_ next',
  write_record (str "R") (mkBuffer [x00] true) blks 0 = Ok (ri, buf) /\
  blocks_tags blks = [5; 5] /\ map (fun b => wb_calls b) blks = [[DTag 5]; [DTag 5]; [DPtr 5]] /\
  (* the two copies are read to the addresses 101 and 102 *)
  read_blocks (skipn (Z.to_nat (ri_hlen ri)) (b_bytes buf))
     [mkRB (str "A") (fun _ => read_shape (fun _ => 101) [DTag 5]);
      mkRB (str "B") (fun _ => read_shape (fun _ => 102) [DTag 5]);
      mkRB (str "C") (fun _ => read_shape (fun a => a) [DPtr 5])] 1 = Ok (out, at_, next') /\
  map (fun nm => map (reloc_ptr at_) (snd nm)) out = [[]; []; [101]] /\ assoc 1 at_ = Some 101 /\ length at_ = 1%nat.
Proof.
  exists [mkWB (str "A") 1 [DTag 5]; mkWB (str "B") 1 [DTag 5]; mkWB (str "C") 1 [DPtr 5]].
  do 5 eexists. split; [vm_compute; reflexivity|]. split; [reflexivity|]. split; [reflexivity|].
  split; [vm_compute; reflexivity|]. vm_compute. auto.
Qed.
Print Assumptions C03_object_written_twice_refuted.

(** ** C04 *)

Theorem C04_records_roundtrip : forall buf rs outbuf,
  b_valid buf = true -> b_bytes buf <> [] -> Forall rec_ok rs ->
  exists file rhos l,
    write_recs buf rs = Ok file /\
    Forall2 (fun r rh => rho_ok (blocks_calls (rc_blocks r)) rh) rs rhos /\
    read_recs (S (length rs)) (open_ifs file) outbuf = (l, Throw EEof) /\
    map dump_record l = map view_rec (combine rs rhos) /\
    Forall (fun x => ri_start (fst x) mod 4 = 0) l.
Proof. exact records_roundtrip. Qed.
Print Assumptions C04_records_roundtrip.

Example C04_case : Forall rec_ok
  [mkRec (str "Rec") 7 ex_blocks; mkRec (str "Empty") 0 []; mkRec (str "Rec") 0 [mkWB (str "A") 65538 (w_string (str "hello"))]].
Proof.
  repeat constructor; try (vm_compute; congruence); try (vm_compute; reflexivity); cbn; intuition discriminate.
Qed.

(** ** C05 *)

Theorem C05_dispatch : forall A (handlers : list (rblock A)) r blks next st' out,
  NoDup (map rb_name handlers) -> blocks_ok blks -> Zlen (render0 (blocks_calls blks)) < two32 ->
  delivered handlers (map (view_block r) blks) ([], next) st' out ->
  read_blocks (blocks_bytes r blks) handlers next = Ok (out, fst st', snd st').
Proof. exact @dispatch_spec. Qed.
Print Assumptions C05_dispatch.

Theorem C05_handler_order_irrelevant : forall A (h1 h2 : list (rblock A)) buf next,
  NoDup (map rb_name h1) -> Permutation h1 h2 -> read_blocks buf h1 next = read_blocks buf h2 next.
Proof. exact @read_blocks_perm. Qed.
Print Assumptions C05_handler_order_irrelevant.

(** Three stored blocks, handlers for the third, for the first and for one that is absent. *)
Definition ex_handler (n : string) : rblock (Z * bytes) :=
  mkRB (str n) (fun v => let* s := r_string in rret (v, s)).
Definition ex_stored : list wblock :=
  [mkWB (str "one") 1 (w_string (str "first")); mkWB (str "two") 2 (w_string (str "second"));
   mkWB (str "three") 3 (w_string (str "third"))].
Example C05_case :
  NoDup (map rb_name [ex_handler "three"; ex_handler "zero"; ex_handler "one"]) /\
  blocks_ok ex_stored /\ Zlen (render0 (blocks_calls ex_stored)) < two32 /\
  delivered [ex_handler "three"; ex_handler "zero"; ex_handler "one"]
    (map (view_block dummy_rho) ex_stored) ([], 1) ([], 1)
    [(str "one", (1, str "first")); (str "three", (3, str "third"))].
Proof.
  split; [cbn; repeat constructor; cbn; intuition discriminate|].
  split; [repeat constructor; vm_compute; congruence|].
  split; [vm_compute; reflexivity|].
  assert (R : forall (v : Z) (s hdr : bytes), len31 s ->
    (let* x := r_string in rret (v, x)) (mkR (hdr ++ renderR dummy_rho (w_string s)) (Zlen hdr) [] 1)
    = Ok ((v, s), mkR (hdr ++ renderR dummy_rho (w_string s)) (Zlen hdr + Zlen (renderR dummy_rho (w_string s))) [] 1)).
  { intros v s hdr Hs. pose proof (reads_map _ (fun x => (v, x)) _ _ _ _ (reads_string s dummy_rho ([], 1) Hs) hdr []) as Q.
    rewrite app_nil_r in Q. exact Q. }
  cbn [map ex_stored]. unfold view_block at 1. cbn [wb_name wb_version wb_calls].
  eapply Del_some with (h := ex_handler "one"); [cbn; auto|reflexivity| |].
  { intros hdr. apply R. vm_compute. reflexivity. }
  unfold view_block at 1. cbn [wb_name wb_version wb_calls].
  eapply Del_none. { cbn [In]. intros h [<-|[<-|[<-|[]]]]; cbn; discriminate. }
  unfold view_block at 1. cbn [wb_name wb_version wb_calls].
  eapply Del_some with (h := ex_handler "three"); [cbn; auto|reflexivity| |].
  { intros hdr. apply R. vm_compute. reflexivity. }
  apply Del_nil.
Qed.
