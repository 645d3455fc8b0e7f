(** Example values of the CMCE PDUs and the two values that bring the parsers down. *)
From Verif Require Import Base BitsLib BitBuffer BitBufferProofs BitBufferOps Codec CodecProofs TypedFields CmceFields CmcePdus PduSpec CmceSpec CmceProofs.
Open Scope N_scope.

Definition ex_cmce_function_not_supported : cmce_function_not_supported := mk_cmce_function_not_supported 7 true (Some 99) 0 None None.
Definition ex_d_alert : d_alert := mk_d_alert 1099 1 false true false (Some (mk_bsi 3 false 1 (Some 2) None)) (Some 1) (Some (mk_t3g 3 10 777)) None.
Definition ex_d_call_proceeding : d_call_proceeding := mk_d_call_proceeding 1099 1 false true (Some (mk_bsi 3 false 1 (Some 2) None)) (Some 1) (Some 1) (Some (mk_t3g 3 10 777)) None.
Definition ex_d_call_restore : d_call_restore := mk_d_call_restore 1099 1 false true (Some 1) (Some 1) (Some 1) (Some 1) (Some 1) (Some (mk_t3g 3 10 777)) (Some (mk_t3g 5 10 777)) (Some (mk_t3g 6 10 777)) None.
Definition ex_d_connect : d_connect := mk_d_connect 1099 1 false true 1 true false (Some 1) (Some (mk_bsi 3 false 1 (Some 2) None)) (Some 1) (Some 1) (Some (mk_t3g 3 10 777)) None.
Definition ex_d_connect_acknowledge : d_connect_acknowledge := mk_d_connect_acknowledge 1099 1 1 true (Some 1) (Some (mk_t3g 3 10 777)) None.
Definition ex_d_disconnect : d_disconnect := mk_d_disconnect 1099 3 (Some 1) (Some (mk_t3g 3 10 777)) None.
Definition ex_d_facility : d_facility := mk_d_facility .
Definition ex_d_info : d_info := mk_d_info 1099 true false (Some 1) (Some 1) (Some 1) (Some 1) (Some 1) (Some 1) (Some 1) (Some 1) (Some 1) (Some 1) (Some (mk_t3g 1 10 777)) (Some (mk_t3g 3 10 777)) (Some (mk_t3g 4 10 777)) None.
Definition ex_d_release : d_release := mk_d_release 1099 3 (Some 1) (Some (mk_t3g 3 10 777)) None.
Definition ex_d_sds_data : d_sds_data := mk_d_sds_data 2 (Some 1234567) (Some 654321) (SdsType4 13 [171; 200]) (Some (mk_t3g 2 10 777)) (Some (mk_t3g 6 10 777)).
Definition ex_d_setup : d_setup := mk_d_setup 1099 1 false true (mk_bsi 0 true 1 None (Some 2)) 1 false 1 (Some 1) (Some 1) (Some 1234567) (Some 654321) (Some (mk_t3g 2 10 777)) (Some (mk_t3g 3 10 777)) (Some (mk_t3g 6 10 777)) None.
Definition ex_d_status : d_status := mk_d_status 2 (Some 1234567) (Some 654321) (PcsSdsTl (mk_ssr 2 77)) (Some (mk_t3g 2 10 777)) (Some (mk_t3g 6 10 777)).
Definition ex_d_tx_ceased : d_tx_ceased := mk_d_tx_ceased 1099 true (Some 1) (Some (mk_t3g 3 10 777)) (Some (mk_t3g 6 10 777)) None.
Definition ex_d_tx_continue : d_tx_continue := mk_d_tx_continue 1099 true false (Some 1) (Some (mk_t3g 3 10 777)) (Some (mk_t3g 6 10 777)) None.
Definition ex_d_tx_granted : d_tx_granted := mk_d_tx_granted 1099 1 false true false (Some 1) (Some 2) (Some 1234567) (Some 654321) (Some (mk_t3g 2 10 777)) (Some (mk_t3g 3 10 777)) (Some (mk_t3g 6 10 777)) None.
Definition ex_d_tx_interrupt : d_tx_interrupt := mk_d_tx_interrupt 1099 1 false true false (Some 1) (Some 2) (Some 1234567) (Some 1) (Some (mk_t3g 2 10 777)) (Some (mk_t3g 3 10 777)) (Some (mk_t3g 6 10 777)) None.
Definition ex_d_tx_wait : d_tx_wait := mk_d_tx_wait 1099 true (Some 1) (Some (mk_t3g 3 10 777)) (Some (mk_t3g 6 10 777)) None.
Definition ex_u_alert : u_alert := mk_u_alert 1099 true false (Some (mk_bsi 3 false 1 (Some 2) None)) (Some (mk_t3g 3 10 777)) None.
Definition ex_u_call_restore : u_call_restore := mk_u_call_restore 1099 true 2 None (Some 1234567) (Some 654321) (Some (mk_bsi 3 false 1 (Some 2) None)) (Some (mk_t3g 3 10 777)) (Some (mk_t3g 6 10 777)) None.
Definition ex_u_connect : u_connect := mk_u_connect 1099 true false (Some (mk_bsi 3 false 1 (Some 2) None)) (Some (mk_t3g 3 10 777)) None.
Definition ex_u_disconnect : u_disconnect := mk_u_disconnect 1099 3 (Some (mk_t3g 3 10 777)) None.
Definition ex_u_facility : u_facility := mk_u_facility .
Definition ex_u_info : u_info := mk_u_info 1099 true (Some 1) (Some (mk_t3g 1 10 777)) (Some (mk_t3g 3 10 777)) None.
Definition ex_u_release : u_release := mk_u_release 1099 3 (Some (mk_t3g 3 10 777)) None.
Definition ex_u_sds_data : u_sds_data := mk_u_sds_data 1 2 None (Some 1234567) (Some 654321) (SdsType4 13 [171; 200]) (Some (mk_t3g 2 10 777)) (Some (mk_t3g 6 10 777)).
Definition ex_u_setup : u_setup := mk_u_setup 1 true false (mk_bsi 0 true 1 None (Some 2)) false 1 1 2 None (Some 1234567) (Some 654321) (Some (mk_t3g 2 10 777)) (Some (mk_t3g 3 10 777)) (Some (mk_t3g 6 10 777)) None.
Definition ex_u_status : u_status := mk_u_status 1 2 None (Some 1234567) (Some 654321) (PcsSdsTl (mk_ssr 2 77)) (Some (mk_t3g 2 10 777)) (Some (mk_t3g 6 10 777)).
Definition ex_u_tx_ceased : u_tx_ceased := mk_u_tx_ceased 1099 (Some (mk_t3g 3 10 777)) (Some (mk_t3g 6 10 777)) None.
Definition ex_u_tx_demand : u_tx_demand := mk_u_tx_demand 1099 1 false true (Some (mk_t3g 3 10 777)) (Some (mk_t3g 6 10 777)) None.

(** A status report carrying the pre-coded status value 31743 (111 1011 1111 1111) *)
Definition ex_bad_status : u_status := mk_u_status 1 1 None (Some 1234567) None (PcsReserved 31743) None None.
Definition ex_bad_fns : cmce_function_not_supported := mk_cmce_function_not_supported 7 false None 9 (Some 0) None.

Lemma bad_status : exists b,
  u_status_to_bitbuf ex_bad_status (bb_new_autoexpand 64) = Ok b /\
  window b = num 5 8 ++ num 4 1 ++ num 2 1 ++ num 24 1234567 ++ num 16 31743 ++ flag false /\
  u_status_from_bitbuf (set_pos b 0) = Panic.
Proof. eexists. split; [vm_compute; reflexivity|]. split; vm_compute; reflexivity. Qed.
Lemma bad_fns : exists b,
  cmce_function_not_supported_to_bitbuf ex_bad_fns (bb_new_autoexpand 64) = Ok b /\ cmce_function_not_supported_from_bitbuf (set_pos b 0) = Panic.
Proof. eexists. split; vm_compute; reflexivity. Qed.
