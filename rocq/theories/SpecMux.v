(** Specification of whole NAL units and of streams of them: how an encoder writes them, and
    what a reader of the stream is to report.  Independent of the parsers. *)
From Coq Require Import NArith List Bool.
From Verif Require Import SpecBits SpecRbsp SpecVui SpecScaling TypesSps TypesPps SpecSps SpecPps PropsSps
  PropsPps TypesNal SpecNalHeader TypesExt SpecExt TypesSlice TypesSliceHeader SpecSlice SliceHeader
  TypesSvcSlice SpecSvcSlice PropsSlice PropsSvcSlice TypesNalUnit.
Import ListNotations.
Open Scope N_scope.

(** A NAL unit: the header, and the RBSP bytes with emulation prevention. *)
Definition nal_unit (h : nalh) (l : list N) : list N := octets (enc_nalh h) ++ escape l.
(** Headers as the standard has them: not the single byte 0, and reserved_three_2bits is 3. *)
Definition header_std (h : nalh) : Prop :=
  valid_nalh h /\ (nal_ref_idc h <> 0 \/ nal_unit_type h <> 0) /\
  match nal_svc h with Some e => svc_reserved_three_2bits e = 3 | None => True end.

Definition no_parts : payload := mkpayload None None None None None None.
(** [coded st h l p]: to a reader that holds the parameter sets [st], [l] is the RBSP of a unit
    with header [h] whose content is [p]. *)
Inductive coded (st : pstate) (h : nalh) : list N -> payload -> Prop :=
| coded_sps : forall s ls, nal_unit_type h = 7 -> valid_sps s ls -> Forall slist_std ls ->
    coded st h (octets (rbsp (enc_sps s ls))) (mkpayload None (Some s) None None None None)
| coded_pps : forall p ext, nal_unit_type h = 8 -> valid_pps 1 p ext -> ext_std ext ->
    coded st h (octets (rbsp (enc_pps p ext))) (mkpayload None None (Some p) None None None)
| coded_subset_sps : forall v ls ds, nal_unit_type h = 15 -> valid_subsps v ls ds ->
    ss_svc_vui_parameters_present_flag v = 0 -> Forall slist_std ls ->
    coded st h (octets (rbsp (enc_subsps v ls ds))) (mkpayload None None None None (Some v) None)
    (* slice data may follow the slice header *)
| coded_slice : forall v x data, nal_unit_type h = 1 \/ nal_unit_type h = 5 ->
    valid_in (nal_ref_idc h) (nal_unit_type h) st v ->
    reported_in (nal_ref_idc h) (nal_unit_type h) st v = Some x ->
    coded st h (octets (rbsp (enc_in (nal_ref_idc h) (nal_unit_type h) st v ++ data)))
      (mkpayload (Some (mkslp (nal_ref_idc h) (nal_unit_type h) x)) None None None None None)
    (* no dec_ref_base_pic_marking() *)
| coded_prefix : forall e v ds, nal_unit_type h = 14 -> nal_svc h = Some e ->
    valid_prefsvc (nal_ref_idc h) (svc_use_ref_base_pic_flag e) (svc_idr_flag e) v ds ->
    (nal_ref_idc h = 0 -> ds = []) ->
    coded st h (octets (rbsp (enc_prefsvc v ds)))
      (mkpayload None None None
         (Some (mkprefix 1 (nal_ref_idc h) (svc_use_ref_base_pic_flag e) (svc_idr_flag e) (Some v)))
         None None)
| coded_svc_slice : forall v x data, nal_unit_type h = 20 ->
    svc_valid_in zero zero h st v -> svc_reported_in h st v = Some x ->
    coded st h (octets (rbsp (svc_enc_in h st v ++ data)))
      (mkpayload None None None None None
         (Some (mkslext 1 0 (nal_ref_idc h) 20 None (Some x))))
    (* types the parser does not look into: any RBSP *)
| coded_other : forall l, ~ In (nal_unit_type h) [1; 5; 7; 8; 14; 15; 20; 21] ->
    bytes_ok l -> (forall a, l <> a ++ [0]) -> coded st h l no_parts.

(** The parameter sets a reader holds after a unit with content [p]. *)
Definition next_sets (st : pstate) (p : payload) (st' : pstate) : Prop := forall id,
  lookup id (st_sps st') =
    match pl_sps p with
    | Some s => if seq_parameter_set_id s =? id then Some s else lookup id (st_sps st)
    | None => lookup id (st_sps st)
    end /\
  lookup id (st_pps st') =
    match pl_pps p with
    | Some s => if pps_pic_parameter_set_id s =? id then Some s else lookup id (st_pps st)
    | None => lookup id (st_pps st)
    end /\
  lookup id (st_subset_sps st') =
    match pl_subset_sps p with
    | Some s => if seq_parameter_set_id (ss_sps s) =? id then Some s else lookup id (st_subset_sps st)
    | None => lookup id (st_subset_sps st)
    end.

(** A stream: each unit is coded for the parameter sets of the units before it. *)
Inductive coded_stream : pstate -> list (list N) -> list (nalh * payload) -> Prop :=
| coded_nil : forall st, coded_stream st [] []
| coded_cons : forall st h l p st' us r, header_std h -> coded st h l p -> next_sets st p st' ->
    coded_stream st' us r -> coded_stream st (nal_unit h l :: us) ((h, p) :: r).
