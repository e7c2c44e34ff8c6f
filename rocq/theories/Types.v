(** Records of package btypes.  No proofs in this file. *)
From Verif Require Export Base.

(** btypes/address.go:8-14 *)
Record address := mkAddr
  { a_net : Z; a_len : Z; a_maclen : Z; a_mac : list Z; a_adr : list Z }.
Definition addr0 : address := mkAddr 0 0 0 [] [].

(** btypes/npdu.go:17-33; pointers are options *)
Record npdu := mkNpdu
  { n_version : Z; n_dest : option address; n_src : option address; n_vendor : Z;
    n_netmsg : bool; n_msgtype : Z; n_reply : bool; n_prio : Z; n_hop : Z }.
Definition npdu0 : npdu := mkNpdu 0 None None 0 false 0 false 0 0.

(** btypes/apdu.go:95-114 *)
Record apdu := mkApdu
  { p_type : Z; p_seg : bool; p_more : bool; p_segacc : bool; p_maxsegs : Z; p_maxapdu : Z;
    p_invoke : Z; p_seq : Z; p_window : Z; p_service : Z; p_uservice : Z;
    p_eclass : Z; p_ecode : Z; p_raw : list Z }.
Definition apdu0 : apdu := mkApdu 0 false false false 0 0 0 0 0 0 0 0 0 [].

(** btypes/apdu.go PDU types *)
Definition pduConfirmed : Z := 0.
Definition pduUnconfirmed : Z := 16.
Definition pduSimpleAck : Z := 32.
Definition pduComplexAck : Z := 48.
Definition pduSegmentAck : Z := 64.
Definition pduError : Z := 80.
Definition pduReject : Z := 96.
Definition pduAbort : Z := 112.

(** btypes/apdu.go service choices *)
Definition svcReadProperty : Z := 12.
Definition svcReadPropMultiple : Z := 14.
Definition svcWriteProperty : Z := 15.
Definition svcWritePropMultiple : Z := 16.
Definition usvcIAm : Z := 0.
Definition usvcWhoIs : Z := 8.

(** btypes/bvlc.go *)
Definition bvlcTypeBacnetIP : Z := 129.
Definition bfForwarded : Z := 4.
Definition bfUnicast : Z := 10.
Definition bfBroadcast : Z := 11.
Record bvlc := mkBvlc { v_type : Z; v_func : Z; v_len : Z; v_data : list Z }.

(** btypes/property.go:628-633 *)
Record property := mkProp { pr_type : Z; pr_index : Z; pr_data : value; pr_prio : Z }.
(** btypes/object.go:120-125 *)
Record object := mkObj { o_name : list Z; o_desc : list Z; o_id : object_id; o_props : list property }.
(** btypes/property.go:635-640; InvokeID and the error fields are never used *)
Record property_data := mkPD { pd_object : object }.
(** btypes/property.go:642-646 *)
Record multiple_property_data := mkMPD { md_objects : list object }.

(** btypes/device.go:11-17 *)
Record iam := mkIam { i_id : object_id; i_maxapdu : Z; i_seg : Z; i_vendor : Z; i_addr : address }.
Definition iam0 : iam := mkIam (mkOid 0 0) 0 0 0 addr0.

(** encoding/const.go:19-26 *)
Definition ArrayAll : Z := 4294967295.
Definition MaxInstance : Z := 4194303.
Definition MaxPropertyID : Z := 4194303.
Definition MaxAPDU : Z := 1476.
Definition MaxObject : Z := 1023.
