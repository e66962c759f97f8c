(** Which message goes to which function: server.py:84-99 (services and routes),
    service/decorators.py:17-34, service/vtn_service.py:37-43 (the handlers of a
    service) and 64-65, 167-170, 191-197 (who gets a message), client.py:77 and
    1089 (the URL), and the places in client.py where messages are sent. *)
From Coq Require Import String Ascii List Bool.
From Verif.Base Require Import Result Dict PyStr.
From Verif.Model Require Import Enums.
Import ListNotations.
Local Open Scope string_scope.

(** s.rstrip("/") *)
Fixpoint rstrip (s : string) : string :=
  match s with
  | EmptyString => EmptyString
  | String c r => match rstrip r with
                  | EmptyString => if Ascii.eqb c "/" then EmptyString else String c EmptyString
                  | t => String c t
                  end
  end.

(** A class of services: what @service gives it (decorators.py:27-34), and its
    methods, each with what @handler gives it (decorators.py:17-24), if anything.
    Only methods of its own: the inherited ones (vtn_service.py) are not marked. *)
Record service_class := mk_class { sc_name : string; sc_methods : dict string (option string) }.

(** vtn_service.py:37-43: over dir(self), which is sorted. *)
Definition handlers (c : service_class) : dict string string :=
  fold_left (fun d m => match get String.eqb m (sc_methods c) with Some (Some t) => set String.eqb t m d | _ => d end) (sorted (map fst (sc_methods c))) [].

(** service/event_service.py:24-140 *)
Definition EventService : service_class := mk_class "EiEvent"
  [("request_event", Some "oadrRequestEvent"); ("on_request_event", None); ("created_event", Some "oadrCreatedEvent"); ("on_created_event", None)].
(** service/report_service.py:63-300 *)
Definition ReportService : service_class := mk_class "EiReport"
  [("register_report", Some "oadrRegisterReport"); ("on_register_report", None); ("update_report", Some "oadrUpdateReport"); ("on_update_report", None);
   ("created_report", Some "oadrCreatedReport"); ("on_created_report", None); ("registered_report", Some "oadrRegisteredReport")].
(** service/poll_service.py:102-152 *)
Definition PollService : service_class := mk_class "OadrPoll" [("poll", Some "oadrPoll"); ("on_poll", None)].
(** service/registration_service.py:63-146 *)
Definition RegistrationService : service_class := mk_class "EiRegisterParty"
  [("query_registration", Some "oadrQueryRegistration"); ("create_party_registration", Some "oadrCreatePartyRegistration"); ("on_create_party_registration", None);
   ("cancel_party_registration", Some "oadrCancelPartyRegistration"); ("on_cancel_party_registration", None)].
(** server.py:84-87 *)
Definition services : list service_class := [EventService; ReportService; PollService; RegistrationService].

(** server.py:93-96.  aiohttp refuses a path that does not start with a slash.
    (Braces in a path make it a pattern there: not modelled.) *)
Definition routes (http_path_prefix : string) : result (list (string * service_class)) :=
  let prefix := rstrip http_path_prefix in
  mapM (fun s => let path := prefix ++ "/" ++ sc_name s in if startswith "/" path then Ok (path, s) else Raise ValueError) services.

(** client.py:77 and 1089 *)
Definition request_url (vtn_url service : string) : string := rstrip vtn_url ++ "/" ++ service.
(** The path of a URL: what comes after the host.  (Of URLs without queries,
    escapes and dot segments, see Spec/RouteSpec.v.) *)
Fixpoint after_scheme (url : string) : option string :=
  match strip_prefix "://" url with
  | Some r => Some r
  | None => match url with String _ r => after_scheme r | EmptyString => None end
  end.
Fixpoint from_slash (s : string) : string :=
  match s with EmptyString => EmptyString | String c r => if Ascii.eqb c "/" then s else from_slash r end.
Definition path_of (url : string) : option string := option_map from_slash (after_scheme url).

(** What becomes of a message that is posted to a path: aiohttp looks for the
    path among the routes (HTTP 404 if there is none); vtn_service.py:64-65;
    167-170 and 191-197. *)
Inductive outcome := NotFound | EmptyAnswer | NotForThisEndpoint | HandledBy (method : string).
Definition deliver (table : list (string * service_class)) (path message_type : string) : outcome :=
  match get String.eqb path table with
  | None => NotFound
  | Some s => if message_type =? "oadrResponse" then EmptyAnswer
              else match get String.eqb message_type (handlers s) with Some m => HandledBy m | None => NotForThisEndpoint end
  end.

(** The messages of a VEN, each with the service that it is sent to. *)
Definition sends : list (string * string) :=
  [("OadrPoll", "oadrPoll");                                      (* client.py:393-395 *)
   ("EiRegisterParty", "oadrQueryRegistration");                  (* 408-411 *)
   ("EiRegisterParty", "oadrCreatePartyRegistration");            (* 432-446 *)
   ("EiRegisterParty", "oadrCancelPartyRegistration");            (* 508-515 *)
   ("EiEvent", "oadrRequestEvent");                               (* 540-546 *)
   ("EiEvent", "oadrCreatedEvent");                               (* 553-565, 1224-1231 *)
   ("EiOpt", "oadrCreateOpt");                                    (* 634-636 *)
   ("EiOpt", "oadrCancelOpt");                                    (* 669-671 *)
   ("EiReport", "oadrRegisterReport");                            (* 709-711 *)
   ("EiReport", "oadrCreatedReport");                             (* 724, 830-841 *)
   ("EiReport", "oadrCanceledReport");                            (* 948-971 *)
   ("EiReport", "oadrUpdateReport");                              (* 982-989 *)
   ("EiRegisterParty", "oadrCanceledPartyRegistration");          (* 1036-1039, 1058-1060 *)
   ("EiRegisterParty", "oadrResponse");                           (* 1074-1079, called in 1274 *)
   ("EiReport", "oadrRegisteredReport")].                         (* 1292-1299 *)
