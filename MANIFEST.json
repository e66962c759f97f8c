{
 "claims": [
  {
   "property": "C01",
   "status": "proved",
   "theorems": [
    "C01_accepted_at_most_once",
    "C01_clock_hypothesis_needed"
   ],
   "note": "All histories, any set iteration order; the clock hypothesis is shown necessary."
  },
  {
   "property": "C02",
   "status": "proved",
   "theorems": [
    "C02_accept_iff",
    "C02_accept_iff_fresh_and_new",
    "C02_reject_changes_nothing",
    "C02_cache_bounded",
    "C02_nothing_stale_kept",
    "C02_nothing_fresh_lost",
    "C02_malformed_timestamp_type_error"
   ],
   "note": "Also records that a text that is no timestamp gives TypeError instead of ValueError."
  },
  {
   "property": "C03",
   "status": "proved",
   "theorems": [
    "C03_handled_exactly",
    "C03_only_authenticated",
    "C03_at_most_once",
    "C03_impostor"
   ],
   "note": "Exact: a handler is called iff the message arrived whole, is for this VTN, comes from a registered VEN and (TLS, ven_id present, a lookup configured) is authenticated. XML, crypto, lookups, hooks and handlers are arbitrary functions."
  },
  {
   "property": "C04",
   "status": "partial",
   "theorems": [
    "C04_documented_refuted",
    "C04_statuses_partial",
    "C04_schema_partial",
    "C04_handler_raises_partial",
    "C04_protocol_error_partial",
    "C04_request_event_500_partial",
    "C04_content_type_500_partial",
    "C04_last_hook_partial",
    "C04_lookup_fails_partial",
    "C04_refused"
   ],
   "note": "Refuted as stated: a wrong content type is answered with 500 (HTTPError gets an unknown keyword: TypeError), and a protocol error in answer to oadrRequestEvent with 500 (no events in the answer: KeyError). Proved: the four statuses (unless user code raises HTTPError itself), the status per exception, and that refused requests have no effects."
  },
  {
   "property": "C05",
   "status": "proved",
   "theorems": [
    "C05_unknown_ven",
    "C05_wrong_vtn"
   ],
   "note": "For messages whose text can be made (sendable). The wrong-vtn_id theorem uses that the schema gives an oadrRequestEvent no vtnID."
  },
  {
   "property": "C06",
   "status": "partial",
   "theorems": [
    "C06_type_refuted",
    "C06_protocol_error_partial",
    "C06_authentication_partial",
    "C06_not_supported_partial"
   ],
   "note": "Refuted as stated: errors always come as oadrResponse (oadrDistributeEvent for oadrRequestEvent, which cannot be made) and without the request id. Proved: type, code and description of what is sent for handler errors, failed authentication and unsupported types."
  },
  {
   "property": "C07",
   "status": "proved",
   "theorems": [
    "C07_fingerprint_format",
    "C07_fingerprint_identifies"
   ],
   "note": "SHA-256 is an arbitrary function giving 32 bytes."
  },
  {
   "property": "C08",
   "status": "proved",
   "theorems": [
    "C08_timestamp_round_trip",
    "C08_no_confusion",
    "C08_denotes_unique"
   ],
   "note": "UTC years 1000-9999 (strftime %Y is unpadded below 1000)."
  },
  {
   "property": "C09",
   "status": "proved",
   "theorems": [
    "C09_accepts",
    "C09_impossible_is_error",
    "C09_other_text_unchanged"
   ],
   "note": ""
  },
  {
   "property": "C10",
   "status": "partial",
   "theorems": [
    "C10_duration_round_trip_refuted",
    "C10_duration_round_trip_partial",
    "C10_duration_round_trip_value",
    "C10_format_injective"
   ],
   "note": "The full statement is false (C10_duration_round_trip_refuted): negative durations come back as zero and fractions of a second are dropped. Proved: a duration survives exactly when it is non-negative and whole seconds."
  },
  {
   "property": "C11",
   "status": "partial",
   "theorems": [
    "C11_rfc5545_refuted",
    "C11_rfc5545_partial",
    "C11_iso_years_months",
    "C11_weeks_read_as_zero",
    "C11_value_error_iff",
    "C11_timedelta_identity"
   ],
   "note": "The full statement is false (C11_rfc5545_refuted): the week form is read as zero. Proved for all other forms, and the exact set of texts that raise ValueError."
  },
  {
   "property": "C12",
   "status": "proved",
   "theorems": [
    "C12_flatten_characterised",
    "C12_flatten_preserves_text",
    "C12_lines_are_glued"
   ],
   "note": "Also: lines of a text are glued together (C12_lines_are_glued)."
  },
  {
   "property": "C13",
   "status": "proved",
   "theorems": [
    "C13_booleans"
   ],
   "note": ""
  },
  {
   "property": "C14",
   "status": "partial",
   "theorems": [
    "C14_texts_partial",
    "C14_texts_refuted",
    "C14_identifiers_collide"
   ],
   "note": "False as stated: the receiver guesses types, so identifiers like \"007\", \"12.5\", \"true\", \" x\" or \"\" do not arrive as sent (C14_texts_refuted), and different identifiers collide (C14_identifiers_collide). C14_texts_partial is exact: for each of the 35 text elements of the templates a text arrives unchanged iff it is one non-empty line without white space at the ends that is neither true/false nor written like a number. Missing from the full statement: exactly the other texts."
  },
  {
   "property": "C15",
   "status": "partial",
   "theorems": [
    "C15_all_but_measurements_partial",
    "C15_complete_iff_partial",
    "C15_complete_refuted"
   ],
   "note": "False as stated: in an event with a signal without measurement followed by one with a measurement, the later measurement keeps its raw form (C15_complete_refuted). C15_complete_iff_partial: complete iff in no event a measured signal follows an unmeasured one. C15_all_but_measurements_partial: everything else always arrives, for any number of events, signals, intervals, targets. With zero events there is no events key."
  },
  {
   "property": "C16",
   "status": "proved",
   "theorems": [
    "C16_responses_arrive"
   ],
   "note": "For every number of responses and all plain texts; with zero responses the payload has None in place of a list (stated in the theorem)."
  },
  {
   "property": "C17",
   "status": "partial",
   "theorems": [
    "C17_floats_arrive_partial",
    "C17_integers_never_arrive",
    "C17_integers_refuted"
   ],
   "note": "Values sent as payloadFloat always arrive (C17_floats_arrive_partial); a value sent as payloadInt never does: KeyError from utils.py:241 (C17_integers_never_arrive, C17_integers_refuted). The schema has no payloadInt, so a party that checks messages first refuses such a report before it gets there."
  },
  {
   "property": "C18",
   "status": "partial",
   "theorems": [
    "C18_find_by_refuted",
    "C18_find_by_partial"
   ],
   "note": "violated: with a missing intermediate name the search continues from the enclosing object (refutation: {\"c\":1} found under \"a.c\"). Proved when every name but the last exists."
  },
  {
   "property": "C19",
   "status": "proved",
   "theorems": [
    "C19_pop_by",
    "C19_pop_all"
   ],
   "note": "pop_by against find_by for all lists of well-formed values; repeated popping removes exactly the matching items."
  },
  {
   "property": "C20",
   "status": "proved",
   "theorems": [
    "C20_group_by",
    "C20_partition"
   ],
   "note": "group_by succeeds exactly when every item has a hashable value on the path, and is then the grouping by that value. Cross-type equality of scalars (1 == 1.0) not modelled."
  },
  {
   "property": "C21",
   "status": "proved",
   "theorems": [
    "C21_group",
    "C21_regroup",
    "C21_ungroup_group"
   ],
   "note": "values of other types than list or str in a grouped dict are dropped by ungroup_targets_by_type (model: TOther); the property is about lists."
  },
  {
   "property": "C22",
   "status": "proved",
   "theorems": [
    "C22_setmember",
    "C22_getmember",
    "C22_hasmember",
    "C22_default",
    "C22_default_intermediate"
   ],
   "note": "hasmember takes a single name, not a path. With a missing intermediate name getmember with a default raises AttributeError (C22_default_intermediate)."
  },
  {
   "property": "C23",
   "status": "proved",
   "theorems": [
    "C23_exact_for_divisors",
    "C23_firings_close_enough",
    "C23_usable",
    "C23_jitter_bounded",
    "C23_never_early_iff_divisor",
    "C23_never_early_refuted"
   ],
   "note": "The statement is proved; its title taken literally (never early) is refuted for intervals that do not divide the clock (C23_never_early_refuted) and holds exactly for those that do."
  },
  {
   "property": "C24",
   "status": "proved",
   "theorems": [
    "C24_status",
    "C24_period",
    "C24_forward",
    "C24_completes"
   ],
   "note": "a period of zero or negative duration never completes (open-ended); datetime overflow not modelled."
  },
  {
   "property": "C25",
   "status": "proved",
   "theorems": [
    "C25_covers",
    "C25_empty",
    "C25_unique",
    "C25_per_signal",
    "C25_mixed"
   ],
   "note": "all intervals of the same kind (dict or dataclass); naive and aware starts mixed raise TypeError (C25_mixed)."
  },
  {
   "property": "C26",
   "status": "partial",
   "theorems": [
    "C26_order_refuted",
    "C26_slice_refuted",
    "C26_order_partial",
    "C26_openadr_partial",
    "C26_other_arguments"
   ],
   "note": "violated: active events are sorted by priority and then re-sorted by start, so start dominates priority; limit/offset are ignored unless both are given and non-zero. Proved: permutation, active first, start order, priority only among equal starts; OpenADR order when no active event starts before one of higher priority."
  },
  {
   "property": "C27",
   "status": "proved",
   "theorems": [
    "C27_refresh",
    "C27_determined"
   ],
   "note": "full functional description of the status refresh (field by field), shown to determine the result; a naive start is converted to the aware one."
  },
  {
   "property": "C28",
   "status": "partial",
   "theorems": [
    "C28_periods_refuted",
    "C28_near_refuted",
    "C28_never_partial"
   ],
   "note": "violated: add_raw_event looks for event_descriptor.active_period, which never exists, and recomputes the period from the intervals, so ramp-up, notification and recovery periods are lost (two refutations). Proved: no distribution in any history contains one of them, and an event answered at once is never near."
  },
  {
   "property": "C29",
   "status": "proved",
   "theorems": [
    "C29_external",
    "C29_rejects",
    "C29_accepts",
    "C29_targets_unique"
   ],
   "note": "raises ValueError exactly when the arguments are unacceptable (nothing changes), otherwise appends one event described field by field. Arguments of other Python types than the documented ones are not modelled; the market_context regular expression matches every string."
  },
  {
   "property": "C30",
   "status": "partial",
   "theorems": [
    "C30_only_added",
    "C30_isolation_refuted",
    "C30_isolation_partial"
   ],
   "note": "everything sent was added for that VEN (proved for all histories). Isolation is violated when the same Event object is added for two VENs (refutation); proved when every object is added once, and unconditionally for references, flags and completed ids."
  },
  {
   "property": "C31",
   "status": "proved",
   "theorems": [
    "C31_stays_queued",
    "C31_stays_queued_same_ids",
    "C31_added_is_queued",
    "C31_requests_return_it"
   ],
   "note": "all interleavings of requests, polls, adds, cancels, responses and callbacks. C31_stays_queued assumes that a VEN never has two queued events with the same id; the unconditional version is C31_stays_queued_same_ids."
  },
  {
   "property": "C32",
   "status": "partial",
   "theorems": [
    "C32_update_refuted",
    "C32_update_partial",
    "C32_then_quiet"
   ],
   "note": "violated by a race: an event added while a poll waits for a delivery callback is not in its answer and the update flag is then cleared (refutation). Proved for updates made while no poll of the VEN is waiting; and polls are empty until the next update."
  },
  {
   "property": "C33",
   "status": "partial",
   "theorems": [
    "C33_single_event_refuted",
    "C33_overlap_refuted",
    "C33_completed_once_partial"
   ],
   "note": "violated for a single queued event (the answer shares the queue, which has just been emptied) and for overlapping requests (two refutations). Proved with two or more queued events, and for requests that start after the completing one."
  },
  {
   "property": "C34",
   "status": "partial",
   "theorems": [
    "C34_at_most_once",
    "C34_future_once",
    "C34_only_when_answered",
    "C34_invoked",
    "C34_other_ven_refuted"
   ],
   "note": "at most one invocation per registration, right arguments, only on a matching response, futures at most once: proved for all histories. Violated: callbacks are kept by event id only, so another VEN with an event of the same id consumes it (refutation)."
  },
  {
   "property": "C35",
   "status": "partial",
   "theorems": [
    "C35_no_queue_refuted",
    "C35_completed_refuted",
    "C35_unknown_partial"
   ],
   "note": "violated: KeyError for a VEN without a queue, TypeError for a late response to a completed event (two refutations). Proved for VENs with a queue: exactly 452 / TypeError, and the state does not change."
  },
  {
   "property": "C36",
   "status": "proved",
   "theorems": [
    "C36_cancel",
    "C36_distributed_cancelled",
    "C36_confirmed"
   ],
   "note": "first event with the id is cancelled, number + 1, content unchanged; distributed as cancelled in every continuation; confirmation removes it; unknown id changes nothing."
  },
  {
   "property": "C37",
   "status": "proved",
   "theorems": [
    "C37_modification_numbers"
   ],
   "note": "for every two distributions of the same event object in any history."
  },
  {
   "property": "C38",
   "status": "partial",
   "theorems": [
    "C38_exact",
    "C38_conforms",
    "C38_accepts",
    "C38_value_error_refuted",
    "C38_refusal_partial"
   ],
   "note": "Refuted as stated: a signal whose measurement lacks a name gives KeyError, and a duration of another kind TypeError, not ValueError. C38_exact characterises acceptance and the resulting message completely; C38_refusal_partial says which exceptions remain."
  },
  {
   "property": "C39",
   "status": "partial",
   "theorems": [
    "C39_current_value_refuted",
    "C39_second_time_refuted",
    "C39_preserves_partial",
    "C39_idempotent_partial"
   ],
   "note": "Refuted as stated: the current value of an active SIMPLE event is set to 0, because \"ACTIVE\" is compared with \"active\"; and a second check can refuse text in targets_by_type. The partial theorems give the strongest preservation and idempotence that hold."
  },
  {
   "property": "C40",
   "status": "partial",
   "theorems": [
    "C40_predefined_measurements_refuted",
    "C40_currency_per_kw",
    "C40_predefined_measurements_partial",
    "C40_members_partial"
   ],
   "note": "Refuted as stated: the predefined currencyPerKW measurement does not have the description that validation demands. Proved for all others."
  },
  {
   "property": "C41",
   "status": "proved",
   "theorems": [
    "C41_validation",
    "C41_accepted_name",
    "C41_refusal"
   ],
   "note": "A \"power measurement\" is one whose name contains \"power\" (custom names too); power_attributes=None gives TypeError."
  },
  {
   "property": "C42",
   "status": "proved",
   "theorems": [
    "C42_metadata",
    "C42_exactly_once",
    "C42_recovered",
    "C42_again"
   ],
   "note": "The nine characters are removed at the VTN from any name; names outside the enumerations lose them too (see the example)."
  },
  {
   "property": "C43",
   "status": "partial",
   "theorems": [
    "C43_signal_refuted",
    "C43_signal_type_error",
    "C43_signal_partial",
    "C43_event_refuted",
    "C43_event_partial",
    "C43_opt",
    "C43_opt_accepts"
   ],
   "note": "Refuted as stated: an EventSignal with targets only keeps targets_by_type None, unknown types in targets_by_type give TypeError, and a given active_period is not compared with the intervals. Proved exactly for Opt; the partial theorems state what holds for signals and events."
  },
  {
   "property": "C44",
   "status": "proved",
   "theorems": [
    "C44_validate",
    "C44_again"
   ],
   "note": "Every entry the check accepts is kept unchanged and in order, every other becomes None; a second check changes nothing."
  },
  {
   "property": "C45",
   "status": "partial",
   "theorems": [
    "C45_invalid_refuted",
    "C45_granularity_refuted",
    "C45_requests_partial",
    "C45_granularity_partial",
    "C45_type_error",
    "C45_answered"
   ],
   "note": "Refuted as stated: an invalid tuple or None beside a valid one gives TypeError when the request is formed, and the granularity of a request is that of the last tuple, not one each data point asked for. Proved for clear answers of full-mode and compact handlers: exactly the accepted data points are requested, in order."
  },
  {
   "property": "C46",
   "status": "proved",
   "theorems": [
    "C46_routing",
    "C46_failing_callback",
    "C46_unclaimed",
    "C46_values"
   ],
   "note": "Every callback call is characterised by the intervals of the message. With no callbacks registered at all the whole report goes to on_update_report (C46_unclaimed); a raising callback ends the message (C46_failing_callback)."
  },
  {
   "property": "C47",
   "status": "partial",
   "theorems": [
    "C47_answers",
    "C47_refuted",
    "C47_choices_partial"
   ],
   "note": "Refuted as stated: if the handler of another event in the message raises, the opt type is optOut whatever the handler chose. Proved without condition: one response per due event, in order, with its id, number and an opt type; and that the opt types are the handlers' choices when nothing fails. Messages with repeated ids are not covered by the second theorem."
  },
  {
   "property": "C48",
   "status": "partial",
   "theorems": [
    "C48_same_answer_refuted",
    "C48_same_answer_partial"
   ],
   "note": "Refuted as stated: a repeated cancelled (or completed) event has lost its answer and is opted out of. Proved for events that are neither, over all histories of messages and periodic tasks before the event is over."
  },
  {
   "property": "C49",
   "status": "proved",
   "theorems": [
    "C49_one_copy",
    "C49_one_event",
    "C49_dispatch",
    "C49_default_update"
   ],
   "note": "C49_one_copy covers all histories; C49_one_event covers handlers that wait (with periodic tasks running meanwhile); C49_dispatch gives the calls and memory of a whole message for handlers that do not wait and distinct event ids."
  },
  {
   "property": "C50",
   "status": "partial",
   "theorems": [
    "C50_isolation_refuted",
    "C50_all_opt_out_partial"
   ],
   "note": "Refuted as stated: one failing event makes the VEN opt out of all events of the message, while it remembers the other choices. Proved: the failing event (and every other) is opted out of."
  },
  {
   "property": "C51",
   "status": "proved",
   "theorems": [
    "C51_cleanup",
    "C51_status_log"
   ],
   "note": "Both periodic tasks, each event at its own time."
  },
  {
   "property": "C52",
   "status": "partial",
   "theorems": [
    "C52_requests_partial",
    "C52_one_request_partial",
    "C52_refuted"
   ],
   "note": "Refuted as stated: all requests of one message share one list of r_ids. Proved: what is stored in every case (the shared list is the concatenation of all selections), and exactly the statement when the message has one valid request."
  },
  {
   "property": "C53",
   "status": "partial",
   "theorems": [
    "C53_batches_partial",
    "C53_every_sampling_partial",
    "C53_refuted"
   ],
   "note": "Refuted as stated: with granularity < report back duration < 2 * granularity nothing is ever sent (KeyError). Proved for all other ratios, for every sequence of samplings, with those of other requests between them. The float division int(a/b) is an argument that is assumed to be the floor."
  },
  {
   "property": "C54",
   "status": "partial",
   "theorems": [
    "C54_sent_partial",
    "C54_order_partial",
    "C54_cancel_refuted",
    "C54_empty_answer_refuted"
   ],
   "note": "Refuted as stated: a cancel_report in an answer is never acted upon (the answer is a pair), and an empty answer (None) ends the worker. Proved for the other answers; what is sent is always a front part of the queue."
  },
  {
   "property": "C55",
   "status": "partial",
   "theorems": [
    "C55_accepts",
    "C55_effect",
    "C55_returned_partial",
    "C55_specifier_refuted",
    "C55_scale_refuted"
   ],
   "note": "Refuted as stated: no specifier id is returned for the second data point of a report, and the scale of a shared predefined measurement is changed for earlier reports. The exact conditions and the complete effect are proved."
  },
  {
   "property": "C56",
   "status": "partial",
   "theorems": [
    "C56_cancelled_partial",
    "C56_succeeds",
    "C56_begin",
    "C56_refuted"
   ],
   "note": "Refuted as stated when the VTN uses a request id twice: the second job goes on. Proved in every history with distinct ids. The pause of one second is between cancel_begin and cancel_end, with any history in between."
  },
  {
   "property": "C57",
   "status": "partial",
   "theorems": [
    "C57_identifiers_refuted",
    "C57_granted_partial",
    "C57_denied_partial",
    "C57_wrong_length_partial",
    "C57_ven_registered",
    "C57_ven_not_registered",
    "C57_ven_without_id"
   ],
   "note": "Refuted as stated only in that a denial repeats the ven_id that the VEN sent. Proved through the whole request pipeline and end to end to the VEN: a pair gives exactly that registration, None and False none. A result of another length gives a message that does not fit the schema, so the VEN keeps its old registration."
  },
  {
   "property": "C58",
   "status": "partial",
   "theorems": [
    "C58_frequency_refuted",
    "C58_never_again_partial",
    "C58_again_refuted",
    "C58_granted_partial",
    "C58_denied_partial",
    "C58_denied_stops_partial",
    "C58_failed_partial",
    "C58_cancelled_partial",
    "C58_not_cancelled_partial",
    "C58_silent_handler_partial",
    "C58_given_partial",
    "C58_run_frequency_partial",
    "C58_frequency_fixed_partial"
   ],
   "note": "Refuted: a re-registration with another poll frequency does not change the poll job; after a cancellation the VEN never polls again and registering ends in TypeError (reports is None), in every continuation. Proved: the registration held after each answer, cancellations, provenance of the registration over all histories, the frequency chosen by run, and that a VTN cancellation handler that returns nothing never confirms. Calls do not overlap in the model."
  },
  {
   "property": "C59",
   "status": "partial",
   "theorems": [
    "C59_independent_refuted",
    "C59_settings_partial",
    "C59_same_settings_partial"
   ],
   "note": "Refuted: lookups, signature verification and signing certificate are class attributes. Proved: exactly which constructor call supplies each setting, for every sequence of constructions, and that nothing goes wrong when all servers get the same."
  },
  {
   "property": "C60",
   "status": "partial",
   "theorems": [
    "C60_client_hooks_do_not_matter",
    "C60_client_hooks_in_order",
    "C60_vtn_hooks_refuted",
    "C60_vtn_hooks_partial",
    "C60_vtn_points"
   ],
   "note": "VEN side proved in full. On the VTN side the full statement is false: a hook that is a plain function makes the request fail (C60_vtn_hooks_refuted); proved for coroutine hooks. C60_vtn_points: hooks can be registered for exactly the four points at which they are called."
  },
  {
   "property": "C61",
   "status": "proved",
   "theorems": [
    "C61_results_keep_order",
    "C61_failures",
    "C61_plain"
   ],
   "note": "asyncio.gather is modelled after the CPython source."
  },
  {
   "property": "C62",
   "status": "partial",
   "theorems": [
    "C62_only_valid_messages_are_accepted",
    "C62_failures_are_contained_partial",
    "C62_contained_refuted"
   ],
   "note": "Acceptance is characterised exactly; containment is false for an empty answer (None instead of a pair) and for an error code without description (KeyError)."
  },
  {
   "property": "C63",
   "status": "partial",
   "theorems": [
    "C63_one_request_partial",
    "C63_refuted",
    "C63_late_binding"
   ],
   "note": "Refuted as stated: after a single request all later requests of the message are taken for single ones, and one-shot jobs of a message all report for its last request (late binding). Proved for messages with one request."
  },
  {
   "property": "C64",
   "status": "partial",
   "theorems": [
    "C64_request_partial",
    "C64_address_refuted",
    "C64_answer_partial",
    "C64_ending_partial"
   ],
   "note": "False as stated: a VEN without transport address sends the text \"None\", which arrives as an address (C64_address_refuted; C64_request_partial is exact: the address arrives iff there is one, everything else always). C64_answer_partial and C64_ending_partial: the other messages arrive complete for any number of profiles and transports. Missing: an answer without request id (printed as \"None\")."
  },
  {
   "property": "C65",
   "status": "partial",
   "theorems": [
    "C65_all_but_measurements_partial",
    "C65_complete_iff_partial",
    "C65_complete_refuted"
   ],
   "note": "False as stated: a measurement after a data point without measurement keeps its raw form (C65_complete_refuted). C65_complete_iff_partial: complete iff in no report a measured data point follows an unmeasured one; C65_all_but_measurements_partial: everything else always arrives."
  },
  {
   "property": "C66",
   "status": "proved",
   "theorems": [
    "C66_requests_arrive"
   ],
   "note": "Both messages, any number of requests and data points; with zero of them there is no key (stated by holds_many)."
  },
  {
   "property": "C67",
   "status": "partial",
   "theorems": [
    "C67_pending_partial",
    "C67_pending_refuted",
    "C67_short_partial",
    "C67_updated_partial",
    "C67_text_taken_apart"
   ],
   "note": "False as stated: a single pending id such as \"007\" arrives as \"7\" (C67_pending_refuted). C67_pending_partial: every other list of ids arrives. C67_short_partial, C67_updated_partial: the other messages arrive (oadrResponse: with a VEN id). C67_text_taken_apart: an id given as text instead of a list is sent as its characters."
  },
  {
   "property": "C68",
   "status": "partial",
   "theorems": [
    "C68_answer_refuted",
    "C68_answer_partial"
   ],
   "note": "False as stated: a response that the handler puts into its payload is replaced by 200 OK (C68_answer_refuted), so a handler cannot answer with an error code. C68_answer_partial: all the rest holds for every handled request and every handler result."
  },
  {
   "property": "C69",
   "status": "partial",
   "theorems": [
    "C69_opt_partial",
    "C69_complete_iff_partial",
    "C69_several_targets_partial",
    "C69_other_messages_partial",
    "C69_several_targets_refuted",
    "C69_availability_refuted"
   ],
   "note": "False as stated for two reasons. An opt with two or more targets is never read: TypeError (C69_several_targets_partial for all of them, C69_several_targets_refuted). An availability takes another shape for one and for several periods (C69_availability_refuted; C69_opt_partial gives the shapes). C69_complete_iff_partial: with at most one target everything arrives iff there is no availability period. C69_other_messages_partial: the other messages."
  },
  {
   "property": "C70",
   "status": "partial",
   "theorems": [
    "C70_unacknowledged_refuted",
    "C70_create_partial",
    "C70_grows_partial",
    "C70_own_vtn_partial",
    "C70_cancel_partial",
    "C70_cancelled_partial"
   ],
   "note": "False as stated: an opt stays on the list although the VTN did not acknowledge it (C70_unacknowledged_refuted). C70_create_partial, C70_cancel_partial, C70_cancelled_partial give each step exactly; C70_grows_partial: without acknowledged cancellation the list is all opts ever made; C70_own_vtn_partial: with the VTN of openleadr, which has no route to EiOpt, that is always so and every call returns False."
  },
  {
   "property": "C71",
   "status": "partial",
   "theorems": [
    "C71_several_partial",
    "C71_single_partial",
    "C71_single_refuted"
   ],
   "note": "False with a single event: when it is confirmed as cancelled while its callback runs, the callback was called but nothing is sent (C71_single_refuted). C71_several_partial: with two or more events the claim is exact whatever runs in between. C71_single_partial: exact with one event when nothing else about the VEN happens meanwhile."
  },
  {
   "property": "C72",
   "status": "partial",
   "theorems": [
    "C72_unasked_partial",
    "C72_unasked_refuted",
    "C72_missing_partial",
    "C72_wanted_partial"
   ],
   "note": "False for a VEN from which nothing was requested: KeyError, the VEN gets an error (C72_unasked_refuted, C72_unasked_partial). C72_missing_partial: exact for every VEN whose offer was answered; C72_wanted_partial: what is wanted is the answer to the last offer. For histories whose registrations are answered (C45 gives the others); messages are not interleaved."
  },
  {
   "property": "C73",
   "status": "proved",
   "theorems": [
    "C73_delivery",
    "C73_unclaimed",
    "C73_stays"
   ],
   "note": "C73_delivery for every history whose registrations are answered with requests (C45 tells when), C73_unclaimed before anything was asked, C73_stays: for all later messages. Messages are not interleaved."
  },
  {
   "property": "C74",
   "status": "partial",
   "theorems": [
    "C74_sender_refuted",
    "C74_own_ids_partial",
    "C74_named_request_partial"
   ],
   "note": "False as stated: the sender is not looked at, so any VEN reaches any callback by naming the request id (C74_sender_refuted). C74_own_ids_partial: holds when VENs only name ids of their own requests and ids are unique. C74_named_request_partial: every delivery belongs to a data point of the named request."
  },
  {
   "property": "C75",
   "status": "partial",
   "theorems": [
    "C75_who_partial",
    "C75_used_iff_partial",
    "C75_never_refuted",
    "C75_names_partial",
    "C75_unknown_partial",
    "C75_queue_partial"
   ],
   "note": "False as stated: on_create_report and on_request_report are never called, and on_request_event and on_created_event are not called unless on_poll was added too (C75_never_refuted; C75_used_iff_partial says exactly which are used). The rest holds: C75_who_partial, C75_names_partial, C75_unknown_partial; C75_queue_partial: with on_poll the own event queue is out of use."
  },
  {
   "property": "C76",
   "status": "partial",
   "theorems": [
    "C76_list_partial",
    "C76_list_refuted",
    "C76_conveyed_partial"
   ],
   "note": "False as stated: a list of events is always answered with an error, TypeError (C76_list_refuted, C76_list_partial). C76_conveyed_partial: everything else that is documented is conveyed."
  },
  {
   "property": "C77",
   "status": "partial",
   "theorems": [
    "C77_accepted_partial",
    "C77_choices_partial",
    "C77_others",
    "C77_clock_refuted"
   ],
   "note": "False as stated: when the clock of the VEN is behind, it answers about an event that was sent as completed, which the VTN no longer has: TypeError, and other choices in the answer are lost (C77_clock_refuted). With a clock that is not behind: C77_accepted_partial, C77_choices_partial. C77_others: steps for other VENs change nothing. Sending is one step here (no delivery callbacks in between); events are passed as records, not through XML."
  },
  {
   "property": "C78",
   "status": "partial",
   "theorems": [
    "C78_asked_partial",
    "C78_values_partial",
    "C78_every_sampling_partial",
    "C78_served",
    "C78_refuted"
   ],
   "note": "False as stated for granularity < report back duration < 2 * granularity: nothing is ever sent (C78_refuted, as C53). C78_values_partial (2 <= duration / granularity) and C78_every_sampling_partial (equal): the values arrive. C78_asked_partial: the request itself, when one request is sent per message. C78_served: the VTN handles all the reports. Assumes callbacks that do not raise and a callback that is given for this data point only; reports are passed as records, not through XML."
  },
  {
   "property": "C79",
   "status": "partial",
   "theorems": [
    "C79_read_partial",
    "C79_responses_partial",
    "C79_events_partial",
    "C79_reports_partial",
    "C79_ampersand_refuted",
    "C79_entity_refuted",
    "C79_injection_refuted"
   ],
   "note": "False as stated: the templates do not escape (autoescape is off), so a text with an ampersand makes the message unreadable (C79_ampersand_refuted), an escaped text arrives as another (C79_entity_refuted) and a text can add elements (C79_injection_refuted; schema validation, not modelled, rejects this instance but not e.g. a second groupID). C79_read_partial: holds for all messages, layouts and signatures when no text has mark-up in it. C79_responses_partial, C79_events_partial, C79_reports_partial lift C16, C15 and C17 from trees to texts. That the templates render a layout (shows) of the tree is C84; XML reading is modelled without comments, CDATA, numeric references."
  },
  {
   "property": "C80",
   "status": "proved",
   "theorems": [
    "C80_only_texts",
    "C80_lifted",
    "C80_events",
    "C80_reports",
    "C80_registration",
    "C80_offers",
    "C80_requests",
    "C80_opts"
   ],
   "note": "C80_only_texts: for all 23 kinds of messages (Spec/WrittenSpec.v says for each which fields are texts of users); C80_lifted and the following lift the results about trees (C15-C17 and others) to texts without naming any time, number or duration. That the templates render a layout of the tree is C84; XML reading is modelled without comments, CDATA and numeric references."
  },
  {
   "property": "C81",
   "status": "proved",
   "theorems": [
    "C81_cut_short",
    "C81_doubled",
    "C81_renamed"
   ],
   "note": "C81_cut_short is about texts in the envelope of create_message; C81_doubled and C81_renamed about any accepted text. Reading is the model of expat in Model/XmlText.v. Names are changed in one place only."
  },
  {
   "property": "C82",
   "status": "partial",
   "theorems": [
    "C82_contents",
    "C82_durations",
    "C82_kept_partial",
    "C82_succeeds",
    "C82_first_and_last",
    "C82_full_mode",
    "C82_too_long",
    "C82_at_once_partial",
    "C82_regular_partial",
    "C82_refuted",
    "C82_too_long_refuted"
   ],
   "note": "False as stated: the length is compared with ==, so a report that gets longer than expected is never sent (C82_too_long, C82_too_long_refuted), and a first sampling that completes the report fails and its values are lost (C82_first_and_last, C82_refuted). Proved: C82_contents (one sampling, completely), C82_durations, C82_kept_partial (nothing is lost while samplings succeed), C82_succeeds (exactly when they do), C82_at_once_partial (every sampling is a report, or full mode: any series), C82_regular_partial (the same number of values at each sampling, at least two samplings per report)."
  },
  {
   "property": "C83",
   "status": "partial",
   "theorems": [
    "C83_at_once_partial",
    "C83_never_sent",
    "C83_refuted",
    "C83_fresh_partial",
    "C83_fresh_refuted"
   ],
   "note": "False as stated: a report that is being collected when its request is cancelled is neither sent nor dropped (C83_refuted, C83_never_sent), and its values get into the report of a later request with the same id (C83_fresh_refuted). C83_at_once_partial: holds for requests that are sent at every sampling; C83_fresh_partial: holds when nothing is left over."
  },
  {
   "property": "C84",
   "status": "proved",
   "theorems": [
    "C84_rendered",
    "C84_created",
    "C84_round",
    "C84_delivered",
    "C84_events",
    "C84_reports",
    "C84_registration",
    "C84_offers",
    "C84_requests",
    "C84_opts",
    "C84_answers"
   ],
   "note": "C84_rendered: jinja2 (as modelled) on the texts of the templates (as modelled, character by character) gives a layout of the tree, with every prefix declared and every namespace one of OpenADR; Spec/PayloadSpec.v says for each of 23 kinds which tree is meant. C84_created: create_message is that text, flattened, in the envelope. C84_round, C84_delivered: creating and parsing. C84_events to C84_answers: from objects to the dicts of the other side. Reading is the model of expat and xmltodict in Model/XmlText.v."
  },
  {
   "property": "C85",
   "status": "proved",
   "theorems": [
    "C85_meaningless",
    "C85_prefixes",
    "C85_foreign"
   ],
   "note": "C85_prefixes, C85_meaningless (exactly), C85_foreign. Spec/XmlTextSpec.v says what names mean (means), the model expands them with a scope (Model/XmlText.v expand) and drops the ten namespaces of NAMESPACES. Texts in the messages have no mark-up (clean_xml), as in C79."
  },
  {
   "property": "C86",
   "status": "partial",
   "theorems": [
    "C86_read_back_partial",
    "C86_unclosed_refuted"
   ],
   "note": "False as stated: a target with EMIX interfaces makes the templates print an element that is never closed (parts/emixInterface.xml), and create_message returns it (C86_unclosed_refuted). C86_read_back_partial: true for all payloads of 19 kinds, and for the four others if no dict in the payload has emix_interfaces or report_requests and every measurement has a name and a usual prefix (presentable). Preflight checks are not part of this create_message; they change payloads before."
  },
  {
   "property": "C87",
   "status": "partial",
   "theorems": [
    "C87_passes_partial",
    "C87_refused_partial",
    "C87_covers",
    "C87_events_refused",
    "C87_refuted",
    "C87_measurements"
   ],
   "note": "False as stated: an event without targets (and much else, such as negative durations, signals without intervals, status codes that have not three digits, two targets of an opt) is sent, and the receiver refuses the message (C87_refuted, C87_events_refused). Exact up to one detail: Spec/AcceptedSpec.v says for each of the 23 kinds what OpenADR demands (demands ... cond); C87_passes_partial: if cond, the message passes; C87_refused_partial: if not, it is refused - where a description or unit may be left out in the latter. C87_covers: this is about every message of C84. C87_measurements: the measurements of the package satisfy the demand but for currencyPerKW. The schema is transcribed in Model/SchemaTypes.v; xs:anyURI and the schema of signatures are predicates (arguments). Texts have no mark-up and no line breaks, times are good, measurement names known."
  },
  {
   "property": "C88",
   "status": "partial",
   "theorems": [
    "C88_events",
    "C88_bad_events",
    "C88_senseless_events",
    "C88_nothing",
    "C88_choices",
    "C88_reports",
    "C88_registration",
    "C88_offers",
    "C88_senseless_offers",
    "C88_opts",
    "C88_refuted",
    "C88_values_kept",
    "C88_exchange_partial",
    "C88_request_refused",
    "C88_answer_refused",
    "C88_answer_unsendable",
    "C88_told",
    "C88_reregister",
    "C88_unsupported",
    "C88_untold",
    "C88_broken"
   ],
   "note": "False as stated: events without targets (given by on_poll) are made into a message that the client refuses - the handler has been called, the events are lost (C88_refuted, C88_bad_events, C88_answer_refused); a request that OpenADR does not allow is sent and the handler is not called (C88_request_refused). C88_exchange_partial: if both messages are as OpenADR demands (Spec/AcceptedSpec.v), exactly that happens. C88_events, C88_nothing, C88_choices, C88_reports, C88_registration, C88_offers, C88_opts: the conversations, from the objects of one side to those of the other. Assumed: the network delivers bodies unchanged; no hook raises; no text has mark-up or line breaks. preflight_message is part of the exchange (Model/PreflightDict.v): events and offers arrive as preflight settles them (Spec/CheckedSpec.v); C88_senseless_events, C88_senseless_offers, C88_answer_unsendable: what it refuses is not sent, and the VTN loses the events. Refusals (P_Refusals.v): C88_told (wrong vtn_id, wrong certificate, protocol error of a handler: the VEN gets the code and the description), C88_reregister, C88_unsupported; C88_untold (an oadrRequestEvent that is refused: HTTP 500 only), C88_broken. The texts with which the library itself describes the codes 452 and 463 are left out in the model (empty there)."
  },
  {
   "property": "C89",
   "status": "proved",
   "theorems": [
    "C89_events",
    "C89_reports",
    "C89_nothing_lost"
   ],
   "note": "On arbitrary dicts (Model/PreflightDict.v); the relation of places is Spec/PlacesSpec.v. Which corrections are made is C38, C39 (on records) and C88 (on payloads of well-formed events)."
  },
  {
   "property": "C90",
   "status": "partial",
   "theorems": [
    "C90_answers_partial",
    "C90_checks_partial",
    "C90_given_partial",
    "C90_update_quiet_partial",
    "C90_update_complete_partial",
    "C90_state_partial",
    "C90_ends_partial",
    "C90_refuted"
   ],
   "note": "False as stated for updates: one that is worked on while the first offer is answered gives part of its reports to on_update_report and part to callbacks, as at no single moment (C90_refuted). The rest holds for every interleaving: C90_answers_partial, C90_checks_partial, C90_given_partial (each delivery is right at its moment), C90_update_quiet_partial (updates during which no offer is answered), C90_update_complete_partial (a callback that stays gets its data), C90_state_partial (the state is that of the messages one by one in the order of their answers; registered_reports up to order), C90_ends_partial."
  },
  {
   "property": "C91",
   "status": "partial",
   "theorems": [
    "C91_valid_messages_are_read_partial",
    "C91_enveloped_messages_are_read_partial",
    "C91_poll_is_read_iff",
    "C91_every_valid_message_is_read_refuted"
   ],
   "note": "False as stated: a poll of a VEN with the id 192.168.1.1 is valid and cannot be read - ValueError of float(), the VTN answers 500 or not at all (C91_every_valid_message_is_read_refuted; C91_poll_is_read_iff says exactly which polls are read). C91_valid_messages_are_read_partial, C91_enveloped_messages_are_read_partial: every valid message of all 23 kinds is read under four conditions on its texts (Spec/ReadableSpec.v): what has digits and dots only is a number; a text in the notation of a time is one (not 24:00); durations fit in a timedelta; the uid of an interval is an integer. Each is needed (C91_example_ids, C91_example_others). Assumed: float() accepts what xs:float allows. Contents of other schemas (Atom, ESPI of Green Button) are left out, signatures and attributes of the envelope are not."
  },
  {
   "property": "C92",
   "status": "partial",
   "theorems": [
    "C92_other_messages_partial",
    "C92_events_partial",
    "C92_events_settled",
    "C92_settled_refuted"
   ],
   "note": "False as stated: an event whose targets_by_type has a text (or an empty list) for a type passes once; the targets made of it do not agree with it, so that the second check raises ValueError (C92_settled_refuted). C92_events_partial: with lists of texts in targets_by_type it holds for all events; C92_other_messages_partial: for all offers of reports. C92_events_settled says what stands in the events, for all events. On arbitrary dicts (Model/PreflightDict.v)."
  },
  {
   "property": "C93",
   "status": "partial",
   "theorems": [
    "C93_signature_is_genuine",
    "C93_contents_partial",
    "C93_once_partial",
    "C93_only_the_object_is_read",
    "C93_made_messages",
    "C93_made_messages_are_accepted_iff",
    "C93_certificate",
    "C93_accepted_signature",
    "C93_vtn_accepts_the_same",
    "C93_contents_refuted",
    "C93_once_refuted"
   ],
   "note": "False as stated, in both halves. C93_contents_refuted: the signed object, with its Id, can be moved into a ds:Object of the signature and another object put in its place; schema, signature and replay check pass and the other object is read (validate_xml_signature drops what verify returns). C93_once_refuted: findtext takes the first timestamp and nonce of the document, so that a fresh pair in the KeyInfo, which is not signed, makes an old message acceptable again. C93_contents_partial, C93_once_partial: both hold for documents whose object has the referenced Id and which have one timestamp and one nonce, signed; C93_made_messages: all documents of create_message are of that form. C93_signature_is_genuine holds for all documents. Signatures are an oracle (assumed unforgeable), the steps of signxml (not in the repository) are modelled after XML-DSig; the attribute names ID and id are left out."
  },
  {
   "property": "C94",
   "status": "partial",
   "theorems": [
    "C94_taken_refuted",
    "C94_taken_partial",
    "C94_known_refuted",
    "C94_known_partial",
    "C94_members",
    "C94_enumerations"
   ],
   "note": "False as stated, in both directions. C94_taken_refuted: x- alone is taken as the name of a signal or report and is not allowed; C94_taken_partial: apart from x- without a name, everything that is taken is allowed. C94_known_refuted: the unit AED is missing; C94_known_partial says exactly which values of the schema are not taken: AED, J/s for powerReal, every unit of currencyPerKW (misspelled as currencyPerWK in the table of namespaces), opt reasons of the form x-... other than x-schedule. C94_members holds for every class body, C94_enumerations for the nine classes. A value counts as taken if there are other arguments with which the call succeeds; the texts are without surplus white space (the schema ignores it, the package does not)."
  },
  {
   "property": "C95",
   "status": "partial",
   "theorems": [
    "C95_routes",
    "C95_reached",
    "C95_handlers",
    "C95_service",
    "C95_belongs",
    "C95_delivered_partial",
    "C95_refuted"
   ],
   "note": "False as stated: a VTN of this package has no service for opts (HTTP 404) and no handler for oadrCanceledReport and oadrCanceledPartyRegistration, with which a VEN confirms what the VTN asked for; these are refused with 459 (C95_refuted). C95_delivered_partial: all other messages arrive, for all URLs and prefixes; it says what becomes of the four. C95_reached, C95_routes: which URLs reach which service; C95_handlers, C95_service: which method is called, for any class; C95_belongs: the services are those of the standard."
  },
  {
   "property": "C96",
   "status": "partial",
   "theorems": [
    "C96_message",
    "C96_connection",
    "C96_same",
    "C96_file",
    "C96_chain_partial",
    "C96_chain_wrong",
    "C96_leading",
    "C96_cut",
    "C96_fails",
    "C96_refuted"
   ],
   "note": "False for files with a chain: ssl.PEM_cert_to_DER_cert cuts off the first and the last line of the file and decodes all between them; if the length of the first certificate is a multiple of three its base64 has no = sign, and the letters of the lines in between and the next certificate are read as part of it (C96_chain_wrong, C96_refuted). C96_chain_partial: right for one certificate, and for chains whose first certificate has another length. C96_message, C96_connection, C96_same, C96_file: the other forms agree, for every layout. C96_leading, C96_cut: a file with text before the certificate, or cut within a group of letters, raises; C96_fails: only ValueError. Base64 decoding is modelled as in binascii (lenient)."
  },
  {
   "property": "C97",
   "status": "partial",
   "theorems": [
    "C97_named",
    "C97_always_named",
    "C97_sender_partial",
    "C97_unnamed_handled",
    "C97_reports_taken",
    "C97_values_taken",
    "C97_without_id",
    "C97_refuted"
   ],
   "note": "False as stated: the handler looks up and authenticates the sender only if the payload has a ven_id (vtn_service.py:75-94), and the schema does not demand venID in oadrUpdateReport, oadrCreatedReport, oadrRegisteredReport, oadrRegisterReport and oadrCancelPartyRegistration. A report without it is delivered to the user whoever sends it, without certificate, lookup or signature (C97_refuted, C97_unnamed_handled, C97_reports_taken, C97_values_taken). C97_without_id: what the handlers do without it. C97_named: messages that name a VEN are authenticated. C97_always_named: polls, requests for events and responses to them always name it, for every document without xsi attributes. C97_sender_partial: exactly which messages are left. The handlers are modelled up to where they use the id; what follows is in other models."
  },
  {
   "property": "C98",
   "status": "partial",
   "theorems": [
    "C98_dealt_partial",
    "C98_events",
    "C98_requests",
    "C98_registered",
    "C98_cancels",
    "C98_others",
    "C98_every_answer_is_dealt_with_refuted"
   ],
   "note": "False as stated (C98_every_answer_is_dealt_with_refuted): an oadrUpdateReport calls a method that does not exist (client.py:1282); a report specifier id that looks like a number, a truth value or is blank is a TypeError and no oadrCreatedReport is sent (client.py:731); a VTN id of that kind or in lower case makes the VEN opt out of all events (client.py:1148-1189); an event that begins at a time without Z leaves all events unanswered (utils.py:622-637); an oadrCancelReport for two reports cancels none. C98_dealt_partial: without these, every message is dealt with. C98_events, C98_requests, C98_registered, C98_cancels, C98_others say exactly what happens to each message, with and without them. Documents with xsi attributes are left out (alone); handlers that raise are in C47-C50."
  },
  {
   "property": "C99",
   "status": "partial",
   "theorems": [
    "C99_responses",
    "C99_until_it_fails",
    "C99_taken_partial",
    "C99_no_response",
    "C99_lookup",
    "C99_no_queue",
    "C99_every_response_is_taken_refuted",
    "C99_numeric_id_refuted"
   ],
   "note": "False as stated (C99_every_response_is_taken_refuted, C99_numeric_id_refuted): a message without responses, which the schema allows (eventResponses is optional and may be empty), is a KeyError or TypeError (event_service.py:93, 123), so HTTP 500; an event id that looks like a number or a truth value, or is blank, is not a text any more when it arrives (utils.py:99-108), so that the handler gets another id and the internal queue refuses the response with 452 although the event is there. C99_taken_partial: with at least one response and ids that are words, it holds. C99_responses and C99_no_response together say exactly what happens for all messages; C99_until_it_fails: the same with a handler that may raise; C99_lookup the same for the lookup in the queue; C99_no_queue: without a list of events for the VEN each response is a KeyError. Documents with xsi attributes are left out (alone)."
  },
  {
   "property": "C100",
   "status": "partial",
   "theorems": [
    "C100_without_callbacks",
    "C100_delivered_partial",
    "C100_no_report",
    "C100_no_intervals",
    "C100_unmeasured",
    "C100_several_payloads",
    "C100_every_report_is_taken_refuted",
    "C100_reports_refuted"
   ],
   "note": "False as stated (C100_every_report_is_taken_refuted, C100_reports_refuted): a message without reports, which the schema allows, is a KeyError (report_service.py:231); with callbacks a report without intervals is a KeyError (report_service.py:238), after which the reports behind it get to nobody (C100_no_intervals); an interval without a start is a KeyError, one with two payloads an AttributeError (report_service.py:242, utils.py:481; C100_example_unmeasured). C100_without_callbacks: with at least one report and no callbacks it holds for all messages. C100_delivered_partial: with callbacks it holds if each interval of each report has a start and one payload with a number. For a mixture of such reports and reports without intervals C100_no_intervals says what happens; what happens to other intervals is stated of the message as it was read, not of its text: C100_unmeasured (an interval without a start or value, for which there is a callback, is a KeyError; nobody gets its values or the reports behind), C100_several_payloads (an interval with several payloads is an AttributeError). The r_id, the moment and the number of each reading are those that the texts of its interval write (tells, moment_of, worth). Documents with xsi attributes are left out (alone)."
  }
 ]
}