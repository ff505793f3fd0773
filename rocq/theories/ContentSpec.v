(** What the messages of the HLR may carry, without the functions of Hlr.v *)
From Verif Require Import Base PeerId Db Gsup Router Hlr.

(** the message that a log entry sends *)
Definition message (y : out) : option gsup := match y with OResp _ r _ _ => Some r | OTx _ g => Some g | _ => None end.
(** [m] is [g] passed on: same kind, subscriber and contents *)
Definition passed_on (g m : gsup) : Prop := g_type m = g_type g /\ g_imsi m = g_imsi g /\ g_cause m = g_cause g /\ g_x m = g_x g.
(** [m] carries nothing but what its kind is for: 10 Send Auth Info Result: authentication vectors; 16 Insert Subscriber Data Request: MSISDN and PDP
    contexts; 50 Check IMEI Result: whether the IMEI is good; 34 Process SS Result: a USSD text or error; 37 MO-forwardSM Error: the cause *)
Record own_contents (m : gsup) : Prop := {
  oc_vec : x_vecs (g_x m) <> [] \/ x_nvec (g_x m) <> 0 -> g_type m = 10;
  oc_num : x_msisdn (g_x m) <> None \/ x_pdp (g_x m) <> [] -> g_type m = 16;
  oc_imei : x_imei_ack (g_x m) = true -> g_type m = 50;
  oc_ss : x_ss (g_x m) <> PlNone -> g_type m = 34;
  oc_sm : x_sm_cause (g_x m) <> None -> g_type m = 37;
  oc_rest : x_rand (g_x m) = None /\ x_auts (g_x m) = None /\ x_rat (g_x m) = 0 /\ x_imei (g_x m) = None /\ x_da (g_x m) = None /\ x_oa (g_x m) = None /\
            x_other (g_x m) = [] }.
