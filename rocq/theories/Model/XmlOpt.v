(** The opt messages as XML trees, in the manner of Model/Xml.v and
    Model/XmlParty.v. *)
From Coq Require Import ZArith String Ascii List Bool.
From Verif.Base Require Import Result Dict PyStr.
From Verif.Model Require Import Duration DateTime Text Normalize Xml XmlParty.
Import ListNotations.
Local Open Scope string_scope.

(** objects.py:314-338.  The availability is a list of starts and durations;
    the event is its id with the modification number. *)
Record opt_message := mk_opt_message {
  om_id : string; om_type : string; om_reason : string; om_market : option string; om_availability : option (list (datetime * Z));
  om_created : datetime; om_event : option (string * Z); om_targets : list target; om_mrid : option string }.

(** templates/oadrCreateOpt.xml:14-23 *)
Definition available_xml (c : datetime * Z) : xml :=
  node "available" [node "properties" [node "dtstart" [leaf "date-time" (show_time (fst c))]; node "duration" [leaf "duration" (timedeltaformat (snd c))]]].
(** templates/parts/eiTarget.xml:1-27.  A Target has no member
    emix_interfaces (lines 2-6). *)
Definition opt_target_xml (t : target) : xml :=
  node "eiTarget" (opt (leaf "groupID") (t_group_id t) ++ opt (leaf "groupName") (t_group_name t) ++ opt (leaf "resourceID") (t_resource_id t)
                   ++ opt (leaf "venID") (t_ven_id t) ++ opt (leaf "partyID") (t_party_id t))%list.
(** templates/oadrCreateOpt.xml:34-40 *)
Definition opt_targets_xml (ts : list target) : list xml := match ts with [] => [leaf "eiTarget" ""] | _ => map opt_target_xml ts end.

(** templates/oadrCreateOpt.xml:2-48 *)
Definition create_opt_xml (request_id ven_id : string) (o : opt_message) : xml :=
  Elem "oadrCreateOpt" message_attrs ""
    ([leaf "optID" (om_id o); leaf "optType" (om_type o); leaf "optReason" (om_reason o)]
     ++ opt (leaf "marketContext") (om_market o) ++ [leaf "venID" ven_id]
     ++ opt (fun cs => node "vavailability" [node "components" (map available_xml cs)]) (om_availability o)
     ++ [leaf "createdDateTime" (show_time (om_created o)); leaf "requestID" request_id]
     ++ opt (fun e => node "qualifiedEventID" [leaf "eventID" (fst e); leaf "modificationNumber" (str_of_Z (snd e))]) (om_event o)
     ++ opt_targets_xml (om_targets o)
     ++ opt (fun m => node "oadrDeviceClass" [node "endDeviceAsset" [leaf "mrid" m]]) (om_mrid o))%list.
(** templates/oadrCreatedOpt.xml:2-9 and oadrCanceledOpt.xml:2-9, which differ
    in [name] only *)
Definition opt_answer_xml (name : string) (r : answer) (opt_id : string) : xml :=
  Elem name message_attrs "" [answer_xml r; leaf "optID" opt_id].
(** templates/oadrCancelOpt.xml:2-6; client.py:663-670 gives no request_id,
    which prints nothing. *)
Definition cancel_opt_xml (opt_id ven_id : string) : xml :=
  Elem "oadrCancelOpt" message_attrs "" [leaf "requestID" ""; leaf "optID" opt_id; leaf "venID" ven_id].
