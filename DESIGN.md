# Formal model of OpenLEADR (openleadr-python) in Rocq

Source: `/repo` (read as text, never executed).  Model, specifications and proofs: `rocq/theories`.
Claims: `properties.jsonl`; what is proved for each: `MANIFEST.json`; wrong programs tried against the
theorems: `seeded/LOG.jsonl`.

## 1. Approach

* **Shallow embedding, function by function.**  Every Python function in scope becomes a Gallina
  function that follows the same branches in the same order.  Exceptions are values
  (`Base/Result.v`: `Ok`/`Raise exn`).  Every definition of `theories/Model` carries a comment that
  cites the file and lines it models and names each simplification.
* **Oracles are arguments.**  The clock, `generate_id`, user handlers/callbacks/hooks, TLS and XML
  signature verification, SHA-256 and the HTTP transport are parameters; theorems quantify over them.
* **Concurrency.**  Where several coroutines share state (event queues, opts, report jobs) they are cut
  at their `await`s into atomic segments; a label picks which suspended task resumes.  Theorems quantify
  over every finite label sequence.
* **Mutable objects.**  Where Python aliasing matters (event objects shared between queue, callback
  table and a message in flight; the one-element list returned by `order_events`; shared `Measurement`
  objects; a shared `r_ids` list) the model has an explicit heap.
* **Layout.**  `Base/` (results, strings, dictionaries, Python values, sorting), `Model/` (the code, no
  proofs), `Spec/` (small vocabularies used in statements, independent of the model's helpers),
  `Proofs/`, `Properties/` (final theorems; each is followed by `Print Assumptions`, and an `Example`
  shows for each property that its hypotheses are met by a non-trivial case).
* **Findings.**  Where the faithful model violates a property, the file has the full statement as
  `Definition Cnn_full : Prop`, a theorem `Cnn_…_refuted : ~ Cnn_full` with a concrete witness, and the
  strongest true statements found, named with suffix `_partial`.  Most properties with status "partial"
  are of this kind: the claim is false of the code, and the theorems say exactly when it holds.

## 2. What is modelled

| model file | source | properties |
|---|---|---|
| `Model/Async.v` | client.py, hooks.py, utils.py | C60 C61 C62 |
| `Model/Certificates.v` | utils.py | C96 |
| `Model/ClientEvents.v` | client.py | C47 C48 C49 C50 C51 C77 |
| `Model/ClientOpts.v` | client.py, server.py, service/opt_service.py | C69 C70 |
| `Model/ClientReports.v` | client.py, enums.py, objects.py | C52 C53 C54 C55 C56 C63 C82 C83 C94 |
| `Model/ClientRequest.v` | client.py | C60 C61 C62 C88 |
| `Model/Constructors.v` | enums.py, objects.py | C43 C94 |
| `Model/Cron.v` | utils.py | C23 C52 C53 C54 C55 C56 C63 C78 C82 C83 |
| `Model/DateTime.v` | datetime.py, utils.py | C01 C02 C08 C09 C14 C15 C16 C17 C64 C65 C66 C67 C69 C70 C79 C80 C84 C86 C87 C88 C89 C91 C92 C93 C97 C98 C100 |
| `Model/Duration.v` | utils.py | C10 C11 C38 C39 C42 C86 C87 C91 C92 |
| `Model/Enums.v` | enums.py | C94 C95 |
| `Model/EventService.v` | event_service.py, poll_service.py, server.py, service/event_service.py, service/poll_service.py, utils.py | C28 C29 C30 C31 C32 C33 C34 C35 C36 C37 C71 C77 |
| `Model/EventTime.v` | server.py, utils.py | C24 C25 C26 C27 C28 C29 C30 C31 C32 C33 C34 C35 C36 C37 C43 C47 C48 C49 C50 C51 C71 C77 |
| `Model/Exchange.v` | client.py, messaging.py, service/vtn_service.py | C88 C97 C100 |
| `Model/Handlers.v` | event_service.py, poll_service.py, registration_service.py, report_service.py, server.py | C75 C76 |
| `Model/Handling.v` | event_service.py, poll_service.py, registration_service.py, report_service.py, server.py, service/decorators.py, utils.py | C97 C100 |
| `Model/Jinja.v` | lexer.py, messaging.py, parser.py, setup.py, utils.py | C84 C86 C87 C88 |
| `Model/Measurements.v` | enums.py, objects.py, preflight.py, utils.py | C38 C39 C40 C41 C42 C52 C53 C54 C55 C56 C63 C82 C83 C84 C87 C88 C94 |
| `Model/Members.v` | utils.py | C18 C19 C20 C21 C22 C28 C29 C38 C39 C42 C43 |
| `Model/Normalize.v` | enums.py, utils.py | C14 C15 C16 C17 C64 C65 C66 C67 C69 C70 C79 C80 C81 C84 C85 C86 C87 C88 C89 C91 C92 C93 C96 C97 C98 C99 C100 |
| `Model/Objects.v` | enums.py, objects.py | C24 C25 C26 C27 C28 C29 C30 C31 C32 C33 C34 C35 C36 C37 C38 C39 C42 C43 C47 C48 C49 C50 C51 C69 C70 C71 C77 C94 |
| `Model/Payloads.v` | client.py, objects.py, service/event_service.py, service/opt_service.py, service/registration_service.py, service/report_service.py, service/vtn_service.py | C84 C87 C88 |
| `Model/Polled.v` | client.py, utils.py | C98 C99 |
| `Model/Preflight.v` | enums.py, preflight.py, report_service.py | C38 C39 C40 C41 C42 C43 C52 C53 C54 C55 C56 C63 C78 C82 C83 C94 |
| `Model/PreflightDict.v` | messaging.py, preflight.py, utils.py | C88 C89 C92 |
| `Model/Registration.v` | client.py, oadrCreatedPartyRegistration.xml, registration_service.py | C57 C58 |
| `Model/Replay.v` | messaging.py | C01 C02 C93 |
| `Model/Replied.v` | service/event_service.py | C99 |
| `Model/ReportService.v` | report_service.py, service/report_service.py | C72 C73 C74 C78 C90 |
| `Model/ReportTasks.v` | service/report_service.py | C90 |
| `Model/Reports.v` | report_service.py, service/report_service.py, utils.py | C44 C45 C46 C72 C73 C74 C78 C90 |
| `Model/Routes.v` | client.py, decorators.py, server.py, service/decorators.py, service/event_service.py, service/poll_service.py, service/registration_service.py, service/report_service.py, service/vtn_service.py, vtn_service.py | C95 |
| `Model/Schema.v` | messaging.py | C87 C91 C93 C94 C97 C98 C99 C100 |
| `Model/SchemaTypes.v` | messaging.py | C87 C88 C91 C93 C94 C96 C97 C98 C99 C100 |
| `Model/Server.v` | enums.py, objects.py, server.py | C28 C29 C43 C47 C48 C49 C50 C51 C94 |
| `Model/Servers.v` | server.py, vtn_service.py | C59 |
| `Model/Signature.v` | client.py, messaging.py, utils.py | C93 C96 |
| `Model/Templates.v` | messaging.py, templates/oadrCancelOpt.xml, templates/oadrCancelPartyRegistration.xml, templates/oadrCancelReport.xml, templates/oadrCanceledOpt.xml, templates/oadrCanceledPartyRegistration.xml, templates/oadrCanceledReport.xml, templates/oadrCreateOpt.xml, templates/oadrCreatePartyRegistration.xml, templates/oadrCreateReport.xml, templates/oadrCreatedEvent.xml, templates/oadrCreatedOpt.xml, templates/oadrCreatedPartyRegistration.xml, templates/oadrCreatedReport.xml, templates/oadrDistributeEvent.xml, templates/oadrPayload.xml, templates/oadrPoll.xml, templates/oadrQueryRegistration.xml, templates/oadrRegisterReport.xml, templates/oadrRegisteredReport.xml, templates/oadrRequestEvent.xml, templates/oadrRequestReregistration.xml, templates/oadrResponse.xml, templates/oadrUpdateReport.xml, templates/oadrUpdatedReport.xml, templates/parts/eiActivePeriod.xml, templates/parts/eiEvent.xml, templates/parts/eiEventDescriptor.xml, templates/parts/eiEventSignal.xml, templates/parts/eiEventTarget.xml, templates/parts/eiTarget.xml, templates/parts/emixInterface.xml, templates/parts/eventSignalEmix.xml, templates/parts/oadrReportDescription.xml, templates/parts/oadrReportRequest.xml, templates/parts/reportDescriptionEmix.xml |  |
| `Model/Text.v` | utils.py | C07 C12 C13 C14 C15 C16 C17 C52 C53 C54 C55 C56 C63 C64 C65 C66 C67 C69 C70 C78 C79 C80 C81 C82 C83 C84 C85 C86 C87 C88 C91 C96 C98 C99 |
| `Model/VtnService.v` | hooks.py, messaging.py, preflight.py, vtn_service.py | C03 C04 C05 C06 C57 C58 C59 C68 C75 C76 C88 C95 C97 C100 |
| `Model/Xml.v` | eiEventTarget.xml, messaging.py, oadrPayload.xml, templates/oadrCreatedEvent.xml, templates/oadrDistributeEvent.xml, templates/oadrPoll.xml, templates/oadrUpdateReport.xml, templates/parts/eiActivePeriod.xml, templates/parts/eiEvent.xml, templates/parts/eiEventDescriptor.xml, templates/parts/eiEventSignal.xml, templates/parts/eiEventTarget.xml, templates/parts/eventSignalEmix.xml, utils.py | C14 C15 C16 C17 C64 C65 C66 C67 C69 C70 C79 C80 C81 C84 C85 C86 C87 C88 C91 C93 C94 C96 C97 C98 C99 C100 |
| `Model/XmlOpt.v` | client.py, oadrCanceledOpt.xml, objects.py, templates/oadrCancelOpt.xml, templates/oadrCreateOpt.xml, templates/oadrCreatedOpt.xml, templates/parts/eiTarget.xml | C69 C70 C80 C84 C87 C88 |
| `Model/XmlParty.v` | client.py, eventSignalEmix.xml, messaging.py, oadrCanceledReport.xml, oadrResponse.xml, oadrUpdatedReport.xml, reportDescriptionEmix.xml, templates/oadrCancelPartyRegistration.xml, templates/oadrCancelReport.xml, templates/oadrCanceledPartyRegistration.xml, templates/oadrCreatePartyRegistration.xml, templates/oadrCreateReport.xml, templates/oadrCreatedPartyRegistration.xml, templates/oadrCreatedReport.xml, templates/oadrQueryRegistration.xml, templates/oadrRegisterReport.xml, templates/oadrRegisteredReport.xml, templates/oadrRequestEvent.xml, templates/oadrRequestReregistration.xml, templates/oadrResponse.xml, templates/oadrUpdatedReport.xml, templates/parts/oadrReportDescription.xml, templates/parts/oadrReportRequest.xml | C64 C65 C66 C67 C69 C70 C80 C84 C87 C88 |
| `Model/XmlText.v` | messaging.py, templates/oadrPayload.xml, utils.py | C79 C80 C81 C84 C85 C86 C87 C88 C91 C93 C96 C97 C98 C99 C100 |

Simplifications are named in the comment of each definition.  The ones that matter most:

* Rendered messages: the texts of all 35 templates are in the model (`Model/Templates.v`), with a model of
  the part of jinja2 that they use (`Model/Jinja.v`: lexer, parser, rendering, filters).  C84 proves that
  each payload (`Model/Payloads.v`) is rendered as a layout of the XML tree that is meant; C79 that any
  layout of such a tree, flattened and put into the envelope, is read (by a model of expat and xmltodict)
  as the tree, when no text has mark-up in it; C80 reduces this condition to the texts that users choose.
  Objects (dataclasses) are dicts there, as templates read both alike.  `preflight_message` comes before
  and is modelled on its own, on records (C20-C28) and on dicts of any contents (`Model/PreflightDict.v`).
* `Model/PreflightDict.v`: parts of a payload that are the same Python object are changed separately in the
  model; sums of durations beyond `timedelta.max` do not raise; the extra key `targets_by_type` of events
  made from the dataclass (always consistent, `Event.__post_init__`) is left out in the conversations of C88.
* Python's cross-type equalities (`1 == 1.0 == True`) are not modelled for identifiers.
* `float` arithmetic is exact where the code only divides whole seconds; elsewhere floats are opaque.
* Local time zones are a function from UTC to offset (an argument).
* Event and report service are modelled with interruptions at every await that user code can prolong
  (`Model/ReportTasks.v` for the latter; `Model/ReportService.v`, used by C72-C74, is the case without
  them).  There a compact `on_register_report` is asked about all data points of a report in one go.
* C77 and C78 connect the models of both sides on records: what XML does to them is C01-C12's subject;
  sending events is one step there (no delivery callbacks in between).

* C88 puts the models together (`Model/Exchange.v`): the payload of a client is written, posted, checked and
  parsed by the VTN, given to a handler, and the answer goes the same way back.  Both sides run this package;
  the body arrives as it was sent (UTF-8 both ways); what user code gives may be any value (`Other`).

## 3. What is not modelled

* The schemas of XML signatures, Atom and Green Button and the syntax of `xs:anyURI` (predicates that are
  arguments; the OpenADR schema itself is modelled, C87), uniqueness of `xs:ID`, the arithmetic and canonicalisation of XML signatures (which elements a signature is of is modelled, C93), TLS, SHA-256, the HTTP transport (aiohttp), logging,
  APScheduler (only which jobs exist and the meaning of a cron expression), `asyncio` beyond "other
  code runs while a coroutine is suspended".
* Start-up and shut-down of the server (`server.py:155-181`), opening files, command line tools
  (`fingerprint.py`), `utils.ensure_bytes/ensure_str/certificate_domain`.
* Exceptions outside `Exception` (task cancellation), memory exhaustion.

## 4. Findings

Deviations from the claims that the proofs brought to light (each is a `_refuted` theorem or is part of
an exact `_partial` theorem, unless marked "noted", which are observations made while modelling).

Messages and parsing
* Messages that the schema allows cannot all be read: ids such as `192.168.1.1` (digits and dots), times
  such as `T24:00:00Z`, durations of more than 10^9 days and intervals whose uid is a word raise an
  exception in `parse_message` (C91). Numbers with an exponent (`5e3`) are read as text unless they are the
  value of a payload (C91, seen in the example).
* The schema spells `currencyPerKW`, enums.py `currencyPerWK`, so that this measurement is not recognised
  when it arrives (noted).
* utils.py:231-241 has code for `payloadInt`, which the schema does not have (C17).
* Texts that look like numbers become numbers: a single id such as `"007"` arrives as `7` (C16, C67); a
  numeric `vtn_id` makes `.islower()` fail; ids `"0"` count as "not registered".
* A measurement after a data point (or signal) without measurement is not converted (C65, C17).
* Zero signals, intervals or event responses arrive as `None` instead of an empty list; zero events or
  reports have no key (C14-C17).
* `transport_address=None` is sent as the text `None` (C64); so is a missing request id in most answers.
* Targets of a signal are never transmitted; a target with several kinds arrives as several targets; an
  opt with two or more targets cannot be read at all (C69).
* The members of an active period arrive under other names (`ramp_up` for `ramp_up_period`), so a VEN
  never sees status `near`.
* `add_report` with `resource_id` `None` or `""` makes the VTN fail with HTTP 500 (C65).
* A response given by a handler is replaced by `200 OK` (C68).
* `currencyPerWK` is a typo in the namespaces (noted).
* The VTN answers a poll with `response.request_id` `None`, printed as the text `None` (C84, C88): an
  `oadrPoll` has no number, and the VEN reads the text.
* `parts/emixInterface.xml` opens an element that it does not close: a target with EMIX interfaces gives an
  unreadable message (C86).  `parts/eiReportRequest.xml` does not exist: an event with report requests raises.
* Events that the schema does not allow are taken from the queue (or from `on_poll`) and lost: the VTN answers
  200, the VEN refuses the body and its next poll does not get them again (C88).
* What the schema does not allow is sent nevertheless and refused on receipt: events without targets, negative
  durations, signals without intervals, opts with two targets, a `confidence` that is not whole (C87).  Among the
  predefined measurements `currencyPerKW` cannot be sent at all.

* An interval without duration makes `preflight_message` raise a TypeError: the VTN answers 500 and the
  events, already taken from the queue, are lost (C88).  The current value of a SIMPLE signal always
  becomes 0, also of active events (the status is compared in upper case) and also if it was None.
* A power measurement with `power_attributes` None is a TypeError (C88).

VTN pipeline
* A wrong content type, an unsigned message over TLS, and an error in the answer to `oadrRequestEvent`
  end as HTTP 500 (C04-C06).
* Without any lookup a TLS server does not authenticate; `ven_lookup` is called twice per request.
* Settings of one server leak into others in the same process (C59).
* `add_handler`: some documented handlers are never called (C75); lists of events from `on_poll` fail (C76).

Events
* `add_raw_event` always recomputes the active period and drops ramp-up, notification and recovery (C29).
* `event_callbacks` is keyed by event id only: two VENs with the same event id share one callback (C35-C37).
* The same event object added for two VENs is shared; the delivery loop of a single event runs over the
  live queue, so a callback may announce an event that is then not sent (C71).
* One failing event handler makes all events of the message opt out, while the memory keeps the
  handlers' answers; a repeated cancelled or completed event does so too (C47-C50).
* `created_event` for a VEN without queue: KeyError.

Reports
* One invalid tuple beside valid ones is a TypeError; the granularity is that of the last data point (C45).
* An `oadrUpdateReport` that is worked on while the first `oadrRegisterReport` is answered is handed out in
  part to `on_update_report` and in part to the callbacks; data of registrations that overlap end up in
  `registered_reports` in mixed order, and `requested_reports` is that of the one answered last (C90).
* Any VEN reaches any report callback by naming the request id (C74); `oadrCreatedReport` from a VEN that
  never registered reports is a KeyError (C72).
* `create_report`: `single` sticks; one-shot callbacks bind late; intervals of a failed report stay;
  duplicate request ids leave jobs behind; `cancel_report` keeps incomplete reports (C52-C56).
* A callback that returns series: a report whose length passes the expected one is never sent; one that
  is complete at its first sampling fails with a KeyError (C82).  What was collected for a cancelled
  request stays and turns up in a later request with the same id (C83).
* The queue worker dies when a message cannot be created or no response comes, and never acts on
  `cancel_report` (C54).
* `add_report` changes shared predefined measurements; `PULSE_COUNT` always fails (C55).

Signatures
* `validate_xml_signature` drops what `VERIFIER.verify` returns and `parse_message` reads the envelope: the signed
  object can be moved into a `ds:Object` and replaced by another one (signature wrapping).  `_verify_replay_protect`
  takes the first timestamp and nonce anywhere: a fresh pair in the `ds:KeyInfo`, which is not signed, makes a
  recorded message acceptable again (C93).
* The fingerprint that is shown of a certificate file with a chain is wrong (or an error) if the length of the
  first certificate is a multiple of three (C96).
- Messages that do not say which VEN they are from are not authenticated at all
  (vtn_service.py:75-94), and the schema allows that for reports with data, for the
  end of a registration and some others: over TLS, with lookups and verification of
  signatures, an oadrUpdateReport without venID from anybody is delivered to
  on_update_report or to the callbacks (C97).

Texts of messages
* The templates do not escape: an ampersand in an id or a name makes the message unreadable, and a text can
  bring elements of its own (C79).

* The lists of values have gaps: the currency AED and the unit J/s are missing, opt reasons of one's own are
  refused, `currencyPerKW` cannot be offered (`currencyPerWK` in the table of namespaces); `x-` without a name
  is taken and then refused by the schema (C94).

Both sides together
* A VEN whose clock is behind answers about an event that was sent as completed; the VTN has dropped it,
  raises a TypeError and loses the other choices in the message (C77).
* A VEN confirms a cancelled report or registration with a message for which the VTN has no handler: it is
  refused with 459 (C95).
* What the schema allows and the VEN does not expect: `oadrUpdateReport` (its handler does not exist), ids of report
  specifiers and VTNs that look like numbers or are in lower case, times without Z, `oadrCancelReport` for two reports.
  The first two and the fourth raise, the third opts out of all events, the last cancels nothing (C98).
* An oadrCreatedEvent without responses, which the schema allows, is a KeyError or TypeError in the VTN
  (event_service.py:93, 123).  An event id of digits only arrives as a number: the response to an event
  that the VTN has sent under that id is refused with 452 (C99).
* With report callbacks, one report without intervals in an oadrUpdateReport keeps
  the reports behind it from everybody, and the VEN gets HTTP 500; so does an
  interval without a start or with two payloads (C100).
* An event dict with `targets_by_type={'ven_id': 'ven1'}` (a text instead of a list) can be sent once: preflight adds
  `targets` to the dict in place, and the next time finds the two inconsistent and raises (C92).

Registration, opts, scheduling
* After a cancelled registration the VEN cannot register again; a re-registration does not change the
  poll interval that is scheduled (C57, C58).
* An opt stays on the list though the VTN did not acknowledge it; the own VTN has no route for opts (C70).
* Intervals below a second give `*/0`; intervals that do not divide a minute are irregular (C23).

## 5. Trusted base

* Coq 8.16.1 kernel; the build uses no plugin besides those of the standard library, no flag that
  switches off a check.  `coqchk` accepts the result.
* The correspondence between the Python text and the Gallina definitions (comments cite file and lines)
  and the simplifications listed in each comment.
* The behaviour of Python's built-ins and libraries as described in the comments (dict order, list
  methods, `re`, `datetime`, `xmltodict`, `jinja2`).
* The statements themselves: the vocabularies in `Spec/` are small and do not use the model's helpers.

## 6. Theorems and their assumptions

The output of `Print Assumptions` for every theorem below is `Closed under the global context`: no axiom,
not even one of the standard library, is used.  (`coqchk` lists seven constants `Coq.ssr.ssrunder.Under_rel.*`
(`Over_rel`, `Under_rel_from_rel`, `over_rel`, `over_rel_done`, `Under_rel`, `Under_relE`, `under_rel_done`): they are
opaque members of a sealed module of the library `ssreflect` that is loaded with the standard library; no theorem here
depends on them.)

* **C01** A signed message is accepted at most once (proved): `C01_accepted_at_most_once`, `C01_clock_hypothesis_needed`
* **C02** Replay check: stale is rejected, fresh and unseen is accepted, memory is bounded (proved): `C02_accept_iff`, `C02_accept_iff_fresh_and_new`, `C02_reject_changes_nothing`, `C02_cache_bounded`, `C02_nothing_stale_kept`, `C02_nothing_fresh_lost`, `C02_malformed_timestamp_type_error`
* **C03** Over TLS a message reaches its handler only after authentication (proved): `C03_handled_exactly`, `C03_only_authenticated`, `C03_at_most_once`, `C03_impostor`
* **C04** Every request outcome is one of the documented HTTP statuses and errors never leak handler effects (partial): `C04_documented_refuted`, `C04_statuses_partial`, `C04_schema_partial`, `C04_handler_raises_partial`, `C04_protocol_error_partial`, `C04_request_event_500_partial`, `C04_content_type_500_partial`, `C04_last_hook_partial`, `C04_lookup_fails_partial`, `C04_refused`
* **C05** Requests from unknown VENs are answered with a re-registration request (proved): `C05_unknown_ven`, `C05_wrong_vtn`
* **C06** Every protocol error is reported in the message type that belongs to the request (partial): `C06_type_refuted`, `C06_protocol_error_partial`, `C06_authentication_partial`, `C06_not_supported_partial`
* **C07** Certificate fingerprints identify the last ten hash bytes (proved): `C07_fingerprint_format`, `C07_fingerprint_identifies`
* **C08** Timestamps survive the wire (proved): `C08_timestamp_round_trip`, `C08_no_confusion`, `C08_denotes_unique`
* **C09** Parsing a timestamp: accepted language and value (proved): `C09_accepts`, `C09_impossible_is_error`, `C09_other_text_unchanged`
* **C10** Durations survive the wire (partial): `C10_duration_round_trip_refuted`, `C10_duration_round_trip_partial`, `C10_duration_round_trip_value`, `C10_format_injective`
* **C11** RFC5545 durations are understood (partial): `C11_rfc5545_refuted`, `C11_rfc5545_partial`, `C11_iso_years_months`, `C11_weeks_read_as_zero`, `C11_value_error_iff`, `C11_timedelta_identity`
* **C12** Flattening a message does not alter its text (proved): `C12_flatten_characterised`, `C12_flatten_preserves_text`, `C12_lines_are_glued`
* **C13** Booleans survive the wire (proved): `C13_booleans`
* **C14** Identifiers and text survive the wire unchanged (partial): `C14_texts_partial`, `C14_texts_refuted`, `C14_identifiers_collide`
* **C15** Every distributed event arrives complete (partial): `C15_all_but_measurements_partial`, `C15_complete_iff_partial`, `C15_complete_refuted`
* **C16** Every opt response arrives complete (proved): `C16_responses_arrive`
* **C17** Every report value arrives complete (partial): `C17_floats_arrive_partial`, `C17_integers_never_arrive`, `C17_integers_refuted`
* **C18** Looking up by nested key finds the first item that has the value there (partial): `C18_find_by_refuted`, `C18_find_by_partial`
* **C19** pop_by removes exactly what it returns (proved): `C19_pop_by`, `C19_pop_all`
* **C20** Grouping is a partition (proved): `C20_group_by`, `C20_partition`
* **C21** Targets grouped and ungrouped are the same targets (proved): `C21_group`, `C21_regroup`, `C21_ungroup_group`
* **C22** Member access on nested dicts and objects is consistent (proved): `C22_setmember`, `C22_getmember`, `C22_hasmember`, `C22_default`, `C22_default_intermediate`
* **C23** The recurring schedule never fires more often than asked and has bounded jitter (proved): `C23_exact_for_divisors`, `C23_firings_close_enough`, `C23_usable`, `C23_jitter_bounded`, `C23_never_early_iff_divisor`, `C23_never_early_refuted`
* **C24** The event status follows the clock (proved): `C24_status`, `C24_period`, `C24_forward`, `C24_completes`
* **C25** The active period covers the intervals exactly (proved): `C25_covers`, `C25_empty`, `C25_unique`, `C25_per_signal`, `C25_mixed`
* **C26** Events are ordered by the OpenADR rules (partial): `C26_order_refuted`, `C26_slice_refuted`, `C26_order_partial`, `C26_openadr_partial`, `C26_other_arguments`
* **C27** A cancelled event stays cancelled, and refreshing statuses touches nothing else (proved): `C27_refresh`, `C27_determined`
* **C28** A new event's ramp-up period reaches the VEN (partial): `C28_periods_refuted`, `C28_near_refuted`, `C28_never_partial`
* **C29** add_event validates its input and targets the right party (proved): `C29_external`, `C29_rejects`, `C29_accepts`, `C29_targets_unique`
* **C30** A VEN only ever receives its own events (partial): `C30_only_added`, `C30_isolation_refuted`, `C30_isolation_partial`
* **C31** A queued event is not lost (proved): `C31_stays_queued`, `C31_stays_queued_same_ids`, `C31_added_is_queued`, `C31_requests_return_it`
* **C32** An update is announced at the next poll (partial): `C32_update_refuted`, `C32_update_partial`, `C32_then_quiet`
* **C33** A completed event is communicated one last time and then removed (partial): `C33_single_event_refuted`, `C33_overlap_refuted`, `C33_completed_once_partial`
* **C34** The opt callback of an event is called at most once, with the VEN's answer (partial): `C34_at_most_once`, `C34_future_once`, `C34_only_when_answered`, `C34_invoked`, `C34_other_ven_refuted`
* **C35** A response to an unknown event or to an outdated version has no effect (partial): `C35_no_queue_refuted`, `C35_completed_refuted`, `C35_unknown_partial`
* **C36** Cancelling an event bumps its version and its confirmation removes it (proved): `C36_cancel`, `C36_distributed_cancelled`, `C36_confirmed`
* **C37** Modification numbers never decrease (proved): `C37_modification_numbers`
* **C38** Distributed events satisfy the OpenADR conformance rules or are refused (partial): `C38_exact`, `C38_conforms`, `C38_accepts`, `C38_value_error_refuted`, `C38_refusal_partial`
* **C39** Preflight changes nothing that is already right (partial): `C39_current_value_refuted`, `C39_second_time_refuted`, `C39_preserves_partial`, `C39_idempotent_partial`
* **C40** Every predefined measurement can be sent (partial): `C40_predefined_measurements_refuted`, `C40_currency_per_kw`, `C40_predefined_measurements_partial`, `C40_members_partial`
* **C41** Report measurements are validated (proved): `C41_validation`, `C41_accepted_name`, `C41_refusal`
* **C42** Registered report names carry METADATA_ exactly once (proved): `C42_metadata`, `C42_exactly_once`, `C42_recovered`, `C42_again`
* **C43** Events, signals and opts are consistent once constructed (partial): `C43_signal_refuted`, `C43_signal_type_error`, `C43_signal_partial`, `C43_event_refuted`, `C43_event_partial`, `C43_opt`, `C43_opt_accepts`
* **C44** Report request tuples are validated one by one (proved): `C44_validate`, `C44_again`
* **C45** Requested report data points are exactly the ones asked for (partial): `C45_invalid_refuted`, `C45_granularity_refuted`, `C45_requests_partial`, `C45_granularity_partial`, `C45_type_error`, `C45_answered`
* **C46** Report values are routed to the callback that asked for them (proved): `C46_routing`, `C46_failing_callback`, `C46_unclaimed`, `C46_values`
* **C47** The VEN answers every event exactly once per message with the handler's choice (partial): `C47_answers`, `C47_refuted`, `C47_choices_partial`
* **C48** An unchanged event gets the same answer again without bothering the user (partial): `C48_same_answer_refuted`, `C48_same_answer_partial`
* **C49** New events go to on_event, changed ones to on_update_event (proved): `C49_one_copy`, `C49_one_event`, `C49_dispatch`, `C49_default_update`
* **C50** One failing event does not change the answers for others (partial): `C50_isolation_refuted`, `C50_all_opt_out_partial`
* **C51** Cleaning up forgets exactly the irrelevant events (proved): `C51_cleanup`, `C51_status_log`
* **C52** Each report request collects its own data points (partial): `C52_requests_partial`, `C52_one_request_partial`, `C52_refuted`
* **C53** Incremental reports contain every sample exactly once (partial): `C53_batches_partial`, `C53_every_sampling_partial`, `C53_refuted`
* **C54** Reports are sent in the order they were queued, and failures do not stop the queue (partial): `C54_sent_partial`, `C54_order_partial`, `C54_cancel_refuted`, `C54_empty_answer_refuted`
* **C55** add_report returns the identifiers under which the callback is registered (partial): `C55_accepts`, `C55_effect`, `C55_returned_partial`, `C55_specifier_refuted`, `C55_scale_refuted`
* **C56** A cancelled report is sent no more (partial): `C56_cancelled_partial`, `C56_succeeds`, `C56_begin`, `C56_refuted`
* **C57** Registration is granted exactly when the handler grants it (partial): `C57_identifiers_refuted`, `C57_granted_partial`, `C57_denied_partial`, `C57_wrong_length_partial`, `C57_ven_registered`, `C57_ven_not_registered`, `C57_ven_without_id`
* **C58** The VEN's registration state follows the VTN's answer (partial): `C58_frequency_refuted`, `C58_never_again_partial`, `C58_again_refuted`, `C58_granted_partial`, `C58_denied_partial`, `C58_denied_stops_partial`, `C58_failed_partial`, `C58_cancelled_partial`, `C58_not_cancelled_partial`, `C58_silent_handler_partial`, `C58_given_partial`, `C58_run_frequency_partial`, `C58_frequency_fixed_partial`
* **C59** Two servers in one process do not influence each other (partial): `C59_independent_refuted`, `C59_settings_partial`, `C59_same_settings_partial`
* **C60** Hooks run in order and cannot break message handling (partial): `C60_client_hooks_do_not_matter`, `C60_client_hooks_in_order`, `C60_vtn_hooks_refuted`, `C60_vtn_hooks_partial`, `C60_vtn_points`
* **C61** Results of handlers keep their order (proved): `C61_results_keep_order`, `C61_failures`, `C61_plain`
* **C62** A VEN only acts on validated messages, and a failed request is contained (partial): `C62_only_valid_messages_are_accepted`, `C62_failures_are_contained_partial`, `C62_contained_refuted`
* **C63** Every report request of a message is scheduled as it asks (partial): `C63_one_request_partial`, `C63_refuted`, `C63_late_binding`
* **C64** Registration messages arrive as sent (partial): `C64_request_partial`, `C64_address_refuted`, `C64_answer_partial`, `C64_ending_partial`
* **C65** Report offers arrive as sent (partial): `C65_all_but_measurements_partial`, `C65_complete_iff_partial`, `C65_complete_refuted`
* **C66** Report requests arrive as sent (proved): `C66_requests_arrive`
* **C67** Short messages arrive as sent (partial): `C67_pending_partial`, `C67_pending_refuted`, `C67_short_partial`, `C67_updated_partial`, `C67_text_taken_apart`
* **C68** Answers refer to their requests and carry what the handler gave (partial): `C68_answer_refuted`, `C68_answer_partial`
* **C69** Opt messages arrive as sent (partial): `C69_opt_partial`, `C69_complete_iff_partial`, `C69_several_targets_partial`, `C69_other_messages_partial`, `C69_several_targets_refuted`, `C69_availability_refuted`
* **C70** The VEN's list of opts is what the VTN acknowledged (partial): `C70_unacknowledged_refuted`, `C70_create_partial`, `C70_grows_partial`, `C70_own_vtn_partial`, `C70_cancel_partial`, `C70_cancelled_partial`
* **C71** Delivery callbacks announce exactly the events that are sent (partial): `C71_several_partial`, `C71_single_partial`, `C71_single_refuted`
* **C72** The VTN notices reports that a VEN did not create (partial): `C72_unasked_partial`, `C72_unasked_refuted`, `C72_missing_partial`, `C72_wanted_partial`
* **C73** Report data reach the callback given for them, for the whole life of the VTN (proved): `C73_delivery`, `C73_unclaimed`, `C73_stays`
* **C74** Report data are accepted only from the VEN that was asked (partial): `C74_sender_refuted`, `C74_own_ids_partial`, `C74_named_request_partial`
* **C75** Handlers that are added are used (partial): `C75_who_partial`, `C75_used_iff_partial`, `C75_never_refuted`, `C75_names_partial`, `C75_unknown_partial`, `C75_queue_partial`
* **C76** What on_poll returns reaches the VEN (partial): `C76_list_partial`, `C76_list_refuted`, `C76_conveyed_partial`
* **C77** A VEN's choices reach the callbacks of the VTN (partial): `C77_accepted_partial`, `C77_choices_partial`, `C77_others`, `C77_clock_refuted`
* **C78** Sampled values reach the callbacks of the VTN that asked for them (partial): `C78_asked_partial`, `C78_values_partial`, `C78_every_sampling_partial`, `C78_served`, `C78_refuted`
* **C79** The text of a message is read as the message that was meant (partial): `C79_read_partial`, `C79_responses_partial`, `C79_events_partial`, `C79_reports_partial`, `C79_ampersand_refuted`, `C79_entity_refuted`, `C79_injection_refuted`
* **C80** Only the texts of users can spoil a message (proved): `C80_only_texts`, `C80_lifted`, `C80_events`, `C80_reports`, `C80_registration`, `C80_offers`, `C80_requests`, `C80_opts`
* **C81** Messages damaged on the way are refused (proved): `C81_cut_short`, `C81_doubled`, `C81_renamed`
* **C82** Everything the callbacks return is reported, each value once (partial): `C82_contents`, `C82_durations`, `C82_kept_partial`, `C82_succeeds`, `C82_first_and_last`, `C82_full_mode`, `C82_too_long`, `C82_at_once_partial`, `C82_regular_partial`, `C82_refuted`, `C82_too_long_refuted`
* **C83** What was sampled for a cancelled report is sent, and not taken for something else (partial): `C83_at_once_partial`, `C83_never_sent`, `C83_refuted`, `C83_fresh_partial`, `C83_fresh_refuted`
* **C84** Templates print the message that is meant by a payload (proved): `C84_rendered`, `C84_created`, `C84_round`, `C84_delivered`, `C84_events`, `C84_reports`, `C84_registration`, `C84_offers`, `C84_requests`, `C84_opts`, `C84_answers`
* **C85** Prefixes do not matter, namespaces do (proved): `C85_meaningless`, `C85_prefixes`, `C85_foreign`
* **C86** A message is readable, whatever the payload (partial): `C86_read_back_partial`, `C86_unclosed_refuted`
* **C87** What is sent passes the schema check of the receiver (partial): `C87_passes_partial`, `C87_refused_partial`, `C87_covers`, `C87_events_refused`, `C87_refuted`, `C87_measurements`
* **C88** What two of this package say to each other arrives (partial): `C88_events`, `C88_bad_events`, `C88_senseless_events`, `C88_nothing`, `C88_choices`, `C88_reports`, `C88_registration`, `C88_offers`, `C88_senseless_offers`, `C88_opts`, `C88_refuted`, `C88_values_kept`, `C88_exchange_partial`, `C88_request_refused`, `C88_answer_refused`, `C88_answer_unsendable`, `C88_told`, `C88_reregister`, `C88_unsupported`, `C88_untold`, `C88_broken`
* **C89** Preflight touches nothing but what it corrects (proved): `C89_events`, `C89_reports`, `C89_nothing_lost`
* **C90** Messages of the report service may overlap (partial): `C90_answers_partial`, `C90_checks_partial`, `C90_given_partial`, `C90_update_quiet_partial`, `C90_update_complete_partial`, `C90_state_partial`, `C90_ends_partial`, `C90_refuted`
* **C91** Every message that the OpenADR schema allows can be read (partial): `C91_valid_messages_are_read_partial`, `C91_enveloped_messages_are_read_partial`, `C91_poll_is_read_iff`, `C91_every_valid_message_is_read_refuted`
* **C92** What preflight has corrected is right (partial): `C92_other_messages_partial`, `C92_events_partial`, `C92_events_settled`, `C92_settled_refuted`
* **C93** What is accepted as signed was signed, and is accepted once (partial): `C93_signature_is_genuine`, `C93_contents_partial`, `C93_once_partial`, `C93_only_the_object_is_read`, `C93_made_messages`, `C93_made_messages_are_accepted_iff`, `C93_certificate`, `C93_accepted_signature`, `C93_vtn_accepts_the_same`, `C93_contents_refuted`, `C93_once_refuted`
* **C94** The choices of the package are those of the schema (partial): `C94_taken_refuted`, `C94_taken_partial`, `C94_known_refuted`, `C94_known_partial`, `C94_members`, `C94_enumerations`
* **C95** Every message of a VEN reaches the function that is there for it (partial): `C95_routes`, `C95_reached`, `C95_handlers`, `C95_service`, `C95_belongs`, `C95_delivered_partial`, `C95_refuted`
* **C96** A certificate has one fingerprint, in whatever form it comes (partial): `C96_message`, `C96_connection`, `C96_same`, `C96_file`, `C96_chain_partial`, `C96_chain_wrong`, `C96_leading`, `C96_cut`, `C96_fails`, `C96_refuted`
* **C97** Who is not authenticated gets nothing done (partial): `C97_named`, `C97_always_named`, `C97_sender_partial`, `C97_unnamed_handled`, `C97_reports_taken`, `C97_values_taken`, `C97_without_id`, `C97_refuted`
* **C98** A VEN deals with every message that the schema lets a VTN send in answer to a poll (partial): `C98_dealt_partial`, `C98_events`, `C98_requests`, `C98_registered`, `C98_cancels`, `C98_others`, `C98_every_answer_is_dealt_with_refuted`
* **C99** A VTN takes every response to its events that the schema lets a VEN give (partial): `C99_responses`, `C99_until_it_fails`, `C99_taken_partial`, `C99_no_response`, `C99_lookup`, `C99_no_queue`, `C99_every_response_is_taken_refuted`, `C99_numeric_id_refuted`
* **C100** A VTN takes every report with data that the schema lets a VEN send (partial): `C100_without_callbacks`, `C100_delivered_partial`, `C100_no_report`, `C100_no_intervals`, `C100_unmeasured`, `C100_several_payloads`, `C100_every_report_is_taken_refuted`, `C100_reports_refuted`
