(** * The cell id encoding of tracking detectors (C57) *)

From Verif Require Import Bytes BitSpec BitModel BitProofs BitParse BitFacts ConfModel ConfSpec ConfProofs.

(** ** Set once *)

(** Whatever is called: up to the first access an encoding is accepted exactly if it has the names in order;
    from the first access on the encoding is the last one accepted (or the canonical one), every later access
    returns it, and every later attempt to set one is refused. *)
Theorem C57_once : forall before op after c rs, Forall sets before -> ~ sets op -> Forall short before ->
  conf_run conf_new (before ++ op :: after) = (c, rs) -> exists e, last_set before e /\ cf_enc c = e /\ cf_accessed c = true /\
  (forall i s, nth_error before i = Some (CSet s) -> (ordered s /\ nth_error rs i = Some (COut (Ok []))) \/ (~ ordered s /\ nth_error rs i = Some CRuntimeError)) /\
  (forall i call, nth_error (op :: after) i = Some call -> exists r, nth_error rs (length before + i) = Some r /\
     match call with
     | CEncoding => r = COut (Ok e)
     | CSet _ => r = CLogicError
     | CSetAccessed => r = COut (Ok [])
     | CValueString v => match bit_field e with Ok b => exists t, r = COut (Ok t) /\ shows (u32 v) (named_places b) t | Throw x => r = COut (Throw x) | UB u => r = COut (UB u) end
     end).
Proof.
  intros before op after c rs Hb Hop Hs E. destruct (run_sets before Hb Hs) as (e & E1 & L). rewrite run_app, E1, (run_access e op after Hop) in E. injection E as <- <-.
  exists e. split; [exact L|]. split; [reflexivity|]. split; [reflexivity|]. split.
  - intros i s Hi. rewrite nth_error_app1 by (rewrite map_length; apply nth_error_Some; congruence). rewrite nth_error_map, Hi. cbn [option_map].
    pose proof (valid_ordered s) as V. rewrite Forall_forall in Hs. specialize (V (Hs _ (nth_error_In _ _ Hi))). destruct (valid s); [left; split; [apply V; reflexivity|reflexivity]|right; split; [intros O; apply V in O; discriminate O|reflexivity]].
  - intros i call Hi. rewrite nth_error_app2 by (rewrite map_length; lia). rewrite map_length. replace (length before + i - length before)%nat with i by lia.
    change (late e op :: map (late e) after) with (map (late e) (op :: after)). rewrite nth_error_map, Hi. cbn [option_map]. eexists. split; [reflexivity|]. destruct call as [|v|s|]; cbn [late]; try reflexivity.
    destruct (bit_field e) as [b|x|u] eqn:B; cbn [bind]; [|reflexivity..]. eexists. split; [reflexivity|]. exact (value_string_shows e b (u32 v) B).
Qed.
Print Assumptions C57_once.

(** valueString prints the number in every field under its name, for every word. *)
Theorem C57_values : forall s b v, bit_field s = Ok b -> shows v (named_places b) (value_string (set_value b v)).
Proof. exact value_string_shows. Qed.
Print Assumptions C57_values.

(** an encoding, a wrong one, another one, an access, and one that is too late *)
Definition other : bytes := str "system:6,side:-3,layer:10,module:8,sensor:5".
Example C57_once_case : exists c, conf_run conf_new [CSet (str "layer:4,side:2"); CSet other; CEncoding; CSet canonical; CValueString 65; CEncoding] =
  (c, [CRuntimeError; COut (Ok []); COut (Ok other); CLogicError; COut (Ok (str "system:1,side:1,layer:0,module:0,sensor:0")); COut (Ok other)]) /\
  Forall sets [CSet (str "layer:4,side:2"); CSet other] /\ ~ sets CEncoding /\ Forall short [CSet (str "layer:4,side:2"); CSet other].
Proof.
  exists (mkConf other true). split; [vm_compute; reflexivity|]. split; [repeat (apply Forall_cons || apply Forall_nil); eexists; reflexivity|]. split; [intros (s & E); discriminate E|].
  apply Forall_cons; [reflexivity|]. apply Forall_cons; [reflexivity|]. apply Forall_nil.
Qed.

(** ** Numbers of the fields *)

(** Whatever their widths and places: if the five fields come first and no other field has one of these names,
    the encoding is accepted, and if BitField64 accepts it too, the fields have the numbers that subdet(), ...,
    sensor() return. *)
Theorem C57_numbers : forall s d1 d2 d3 d4 d5 rest first, encoding s (d1 :: d2 :: d3 :: d4 :: d5 :: rest) ->
  map d_name [d1; d2; d3; d4; d5] = five first -> first = str "subdet" \/ first = str "system" ->
  ordered s /\
  forall b, bit_field s = Ok b -> (forall d, In d rest -> ~ In (d_name d) (five first)) ->
  index b first = Ok subdetID /\ index b (str "side") = Ok sideID /\ index b (str "layer") = Ok layerID /\ index b (str "module") = Ok moduleID /\ index b (str "sensor") = Ok sensorID.
Proof.
  intros s d1 d2 d3 d4 d5 rest first E N Hf. split; [exact (five_ordered _ _ _ _ _ _ _ _ Hf E N)|]. intros b B R. exact (five_index _ _ _ _ _ _ _ _ _ E N Hf R B).
Qed.
Print Assumptions C57_numbers.
Example C57_numbers_case : encoding canonical canonical_descr /\ map d_name canonical_descr = five (str "subdet") /\ (exists b, bit_field canonical = Ok b).
Proof. split; [exact encoding_canonical|]. split; [reflexivity|]. eexists. vm_compute. reflexivity. Qed.

(** "the encodings that are accepted are usable" is false: BitField64 does not accept this one. *)
Theorem C57_usable_refuted : exists s, ordered s /\ snd (conf_do conf_new (CSet s)) = COut (Ok []) /\ bit_field s = Throw LException.
Proof. exists (str "subdet side layer module sensor"). split; [apply valid_ordered; vm_compute; reflexivity|]. split; vm_compute; reflexivity. Qed.
Print Assumptions C57_usable_refuted.
(** "in an accepted encoding the fields have the numbers returned by layer() etc." is false. *)
Theorem C57_numbers_refuted : exists s b, ordered s /\ snd (conf_do conf_new (CSet s)) = COut (Ok []) /\ bit_field s = Ok b /\ index b (str "layer") = Ok 3 /\ layerID = 2.
Proof.
  exists (str "subdet:5,x:1,side:-2,layer:9,module:8,sensor:7"). destruct (bit_field (str "subdet:5,x:1,side:-2,layer:9,module:8,sensor:7")) as [b| |] eqn:E; [|vm_compute in E; discriminate E..].
  exists b. split; [apply valid_ordered; vm_compute; reflexivity|]. split; [vm_compute; reflexivity|]. split; [reflexivity|]. split; [|reflexivity]. revert E. vm_compute. intros E. injection E as <-. reflexivity.
Qed.
Print Assumptions C57_numbers_refuted.
(** "an accepted encoding has a field side" is false: the name may be part of another one. *)
Theorem C57_names_refuted : exists s b, ordered s /\ snd (conf_do conf_new (CSet s)) = COut (Ok []) /\ bit_field s = Ok b /\ index b (str "side") = Throw LException.
Proof.
  exists (str "subdet:5,outside:-2,layer:9,module:8,sensor:8"). destruct (bit_field (str "subdet:5,outside:-2,layer:9,module:8,sensor:8")) as [b| |] eqn:E; [|vm_compute in E; discriminate E..].
  exists b. split; [apply valid_ordered; vm_compute; reflexivity|]. split; [vm_compute; reflexivity|]. split; [reflexivity|]. revert E. vm_compute. intros E. injection E as <-. reflexivity.
Qed.
Print Assumptions C57_names_refuted.
(** "the field subdet is number subdet() in an accepted encoding that has one" is false if there is a field
    system, too. *)
Theorem C57_system_refuted : exists s b, ordered s /\ snd (conf_do conf_new (CSet s)) = COut (Ok []) /\ bit_field s = Ok b /\ index b (str "subdet") = Ok 5 /\ subdetID = 0.
Proof.
  exists (str "system:5,side:-2,layer:9,module:8,sensor:2,subdet:6"). destruct (bit_field (str "system:5,side:-2,layer:9,module:8,sensor:2,subdet:6")) as [b| |] eqn:E; [|vm_compute in E; discriminate E..].
  exists b. split; [apply valid_ordered; vm_compute; reflexivity|]. split; [vm_compute; reflexivity|]. split; [reflexivity|]. split; [|reflexivity]. revert E. vm_compute. intros E. injection E as <-. reflexivity.
Qed.
Print Assumptions C57_system_refuted.

(** ** ILDCellIDEncoder *)

(** With any further fields: the five canonical fields stay in their places with their numbers, and can be read
    from the first cell id word alone; the collection gets the whole encoding, from which a decoder is made. *)
Theorem C57_ild : forall more ds id1 c b c', encoding more ds -> ds <> [] -> ild_encoder_more more id1 c = (Ok b, c') ->
  named_places b = canonical_places ++ places 32 ds /\ cl_enc c' = Some (str "subdet:5,side:-2,layer:9,module:8,sensor:8," ++ more) /\ decoder c' = Ok b /\
  (forall i n p, nth_error canonical_places i = Some (n, p) -> exists f, field_at b (Z.of_nat i) = Ok f /\ forall v, value v f = number_in (v mod 2 ^ 32) p).
Proof. exact ild_more_ok. Qed.
Print Assumptions C57_ild.
Example C57_ild_case : exists b c', ild_encoder_more (str "x:16,y:-16") 30 (mkCells None 0) = (Ok b, c') /\ encoding (str "x:16,y:-16") [mkDescr (str "x") None 16 false; mkDescr (str "y") None 16 true] /\ index b (str "y") = Ok 6.
Proof.
  destruct (ild_encoder_more (str "x:16,y:-16") 30 (mkCells None 0)) as [[b| |] c'] eqn:E; [|vm_compute in E; discriminate E..]. exists b, c'. split; [reflexivity|]. split; [|revert E; vm_compute; intros E; injection E as <- <-; reflexivity].
  apply (encoding_more (str "x:16")); [|apply encoding_one|discriminate].
  - split; [apply letters; [discriminate|reflexivity]|]. cbn [d_width d_signed d_off d_name]. split; [lia|]. split; [lia|]. exists (str "16"). split; [|reflexivity]. exact (numeral_more (str "1") 1 6 (numeral_one 1 ltac:(lia)) ltac:(lia)).
  - split; [apply letters; [discriminate|reflexivity]|]. cbn [d_width d_signed d_off d_name]. split; [lia|]. split; [lia|]. exists (str "16"). split; [|reflexivity]. exact (numeral_more (str "1") 1 6 (numeral_one 1 ltac:(lia)) ltac:(lia)).
Qed.
(** "the name of a canonical field stands for that field" is false if a further field has the same name. *)
Theorem C57_ild_name_refuted : exists more b c', ild_encoder_more more 30 (mkCells None 0) = (Ok b, c') /\ index b (str "layer") = Ok 5 /\ layerID = 2.
Proof.
  exists (str "layer:4"). destruct (ild_encoder_more (str "layer:4") 30 (mkCells None 0)) as [[b| |] c'] eqn:E; [|vm_compute in E; discriminate E..]. exists b, c'. split; [reflexivity|]. split; [|reflexivity]. revert E. vm_compute. intros E. injection E as <- <-. reflexivity.
Qed.
Print Assumptions C57_ild_name_refuted.
(** "a constructor that throws leaves the collection as it was" is false. *)
Theorem C57_ild_empty_refuted : exists c c', ild_encoder_more [] 30 c = (Throw LException, c') /\ cl_enc c = None /\ cl_enc c' = Some (str "subdet:5,side:-2,layer:9,module:8,sensor:8,").
Proof. exists (mkCells None 0). eexists. split; [vm_compute; reflexivity|]. split; reflexivity. Qed.
Print Assumptions C57_ild_empty_refuted.
