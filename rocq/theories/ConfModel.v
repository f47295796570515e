(** * The cell id encoding of tracking detectors

    Model of src/cpp/include/UTIL/LCTrackerConf.h, of ILDCellIDEncoder in src/cpp/include/UTIL/ILDConf.h and of
    BitField64::valueString.  Simplified: strings are shorter than [npos]. *)

From Verif Require Import Bytes BitModel.

(** ** Searching in strings *)

(** std::string::find, used at LCTrackerConf.h:82-87: the first place from [k] on *)
Fixpoint starts (p s : bytes) : bool :=
  match p, s with
  | [], _ => true
  | a :: p', b :: s' => Byte.eqb a b && starts p' s'
  | _ :: _, [] => false
  end.
(** std::string::npos, LCTrackerConf.h:89 *)
Definition npos : Z := 2 ^ 64 - 1.
(** as above, [k] is the place where [s] begins *)
Fixpoint find_str (p s : bytes) (k : Z) : Z :=
  if starts p s then k else match s with [] => npos | _ :: s' => find_str p s' (k + 1) end.

(** ** LCTrackerCellID *)

(** the members, LCTrackerConf.h:115-117 *)
Record conf := mkConf { cf_enc : bytes; cf_accessed : bool }.
(** ILDCellID0::encoder_string, src/cpp/src/UTIL/ILDConf.cc:6, and the encoding of the constructor,
    LCTrackerConf.h:59-60 *)
Definition canonical : bytes := str "subdet:5,side:-2,layer:9,module:8,sensor:8".
Definition conf_new : conf := mkConf canonical false.
(** the numbers returned by subdet(), ..., sensor(), LCTrackerConf.h:26-56; the same in
    src/cpp/src/UTIL/ILDConf.cc:16-20 *)
Definition subdetID : Z := 0.
Definition sideID : Z := 1.
Definition layerID : Z := 2.
Definition moduleID : Z := 3.
Definition sensorID : Z := 4.
(** the test of a new encoding, LCTrackerConf.h:80-101 *)
Definition valid (s : bytes) : bool :=
  let subdet := find_str (str "subdet") s 0 in
  let system := find_str (str "system") s 0 in
  let side := find_str (str "side") s 0 in
  let layer := find_str (str "layer") s 0 in
  let module := find_str (str "module") s 0 in
  let sensor := find_str (str "sensor") s 0 in
  (negb (subdet =? npos) || negb (system =? npos)) && negb (side =? npos) && negb (layer =? npos) && negb (module =? npos) && negb (sensor =? npos)
  && (((subdet <? side) || (system <? side)) && (side <? layer) && (layer <? module) && (module <? sensor)).

(** printing the number in a field, BitField64.cc:130: a 64 bit number with its sign *)
Definition print_number (z : Z) : bytes := if z <? 0 then minus :: decimal 20 (- z) else decimal 20 z.
(** valueString, BitField64.cc:122-134 *)
Definition value_string (b : bitfield) : bytes := join comma (map (fun f => f_name f ++ [colon] ++ print_number (value (bf_value b) f)) (bf_fields b)).

(** the methods, LCTrackerConf.h:62-112 *)
Inductive confcall := CEncoding | CValueString (v : Z) | CSet (s : bytes) | CSetAccessed.
(** what comes back: std::logic_error and std::runtime_error are thrown at LCTrackerConf.h:77 and 103; the
    exceptions of BitField64 get through valueString *)
Inductive confout := COut (r : Res bytes) | CLogicError | CRuntimeError.
(** one call: encoding_string, LCTrackerConf.h:63-66; valueString, 69-74 (the parameter is [unsigned]);
    set_encoding_string, 76-106; setAccessed, 109-111 *)
Definition conf_do (c : conf) (op : confcall) : conf * confout :=
  match op with
  | CEncoding => (mkConf (cf_enc c) true, COut (Ok (cf_enc c)))
  | CValueString v => (mkConf (cf_enc c) true, COut (do b <- bit_field (cf_enc c); Ok (value_string (set_value b (u32 v)))))
  | CSet s => if cf_accessed c then (c, CLogicError) else if valid s then (mkConf s (cf_accessed c), COut (Ok [])) else (c, CRuntimeError)
  | CSetAccessed => (mkConf (cf_enc c) true, COut (Ok []))
  end.
(** calls one after the other (no code of its own) *)
Fixpoint conf_run (c : conf) (ops : list confcall) : conf * list confout :=
  match ops with
  | [] => (c, [])
  | op :: ops' => let (c1, r) := conf_do c op in let (c2, rs) := conf_run c1 ops' in (c2, r :: rs)
  end.

(** ** ILDCellIDEncoder *)

(** the constructors, src/cpp/include/UTIL/ILDConf.h:74-88: the outcome, and the collection afterwards *)
Definition ild_encoder (id1 : Z) (c : cells) : Res (bitfield * cells) := encoder canonical id1 c.
Definition ild_encoder_more (more : bytes) (id1 : Z) (c : cells) : Res bitfield * cells :=
  match encoder (canonical ++ [comma] ++ more) id1 c with
  | Ok (b, c') => (match more with [] => Throw LException | _ => Ok b end, c')
  | Throw e => (Throw e, c)
  | UB u => (UB u, c)
  end.
