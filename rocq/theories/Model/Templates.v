(** The templates of openleadr/templates, copied character by character (a
    quotation mark is written twice inside a text of Coq). *)
From Coq Require Import String.
Local Open Scope string_scope.

(** templates/oadrCancelOpt.xml:1-7 *)
Definition t_oadrCancelOpt : string := "<oadr:oadrSignedObject xmlns:oadr=""http://openadr.org/oadr-2.0b/2012/07"" oadr:Id=""oadrSignedObject"">
  <oadr:oadrCancelOpt ei:schemaVersion=""2.0b"" xmlns:ei=""http://docs.oasis-open.org/ns/energyinterop/201110"">
    <requestID xmlns=""http://docs.oasis-open.org/ns/energyinterop/201110/payloads"">{{ request_id }}</requestID>
    <ei:optID>{{ opt_id }}</ei:optID>
    <ei:venID>{{ ven_id }}</ei:venID>
  </oadr:oadrCancelOpt>
</oadr:oadrSignedObject>".

(** templates/oadrCancelPartyRegistration.xml:1-7 *)
Definition t_oadrCancelPartyRegistration : string := "<oadr:oadrSignedObject xmlns:oadr=""http://openadr.org/oadr-2.0b/2012/07"" oadr:Id=""oadrSignedObject"">
  <oadr:oadrCancelPartyRegistration ei:schemaVersion=""2.0b"" xmlns:ei=""http://docs.oasis-open.org/ns/energyinterop/201110"">
    <requestID xmlns=""http://docs.oasis-open.org/ns/energyinterop/201110/payloads"">{{ request_id }}</requestID>
    <ei:registrationID>{{ registration_id }}</ei:registrationID>
    <ei:venID>{{ ven_id }}</ei:venID>
  </oadr:oadrCancelPartyRegistration>
</oadr:oadrSignedObject>".

(** templates/oadrCancelReport.xml:1-8 *)
Definition t_oadrCancelReport : string := "<oadr:oadrSignedObject xmlns:oadr=""http://openadr.org/oadr-2.0b/2012/07"" oadr:Id=""oadrSignedObject"">
  <oadr:oadrCancelReport ei:schemaVersion=""2.0b"" xmlns:ei=""http://docs.oasis-open.org/ns/energyinterop/201110"">
    <requestID xmlns=""http://docs.oasis-open.org/ns/energyinterop/201110/payloads"">{{ request_id }}</requestID>
    <ei:reportRequestID>{{ report_request_id }}</ei:reportRequestID>
    <reportToFollow xmlns=""http://docs.oasis-open.org/ns/energyinterop/201110/payloads"">{{ report_to_follow|booleanformat }}</reportToFollow>
    <ei:venID>{{ ven_id }}</ei:venID>
  </oadr:oadrCancelReport>
</oadr:oadrSignedObject>".

(** templates/oadrCanceledOpt.xml:1-10 *)
Definition t_oadrCanceledOpt : string := "<oadr:oadrSignedObject xmlns:oadr=""http://openadr.org/oadr-2.0b/2012/07"" oadr:Id=""oadrSignedObject"">
  <oadr:oadrCanceledOpt ei:schemaVersion=""2.0b"" xmlns:ei=""http://docs.oasis-open.org/ns/energyinterop/201110"">
    <ei:eiResponse>
      <ei:responseCode>{{ response.response_code }}</ei:responseCode>
      <ei:responseDescription>{{ response.response_description }}</ei:responseDescription>
      <requestID xmlns=""http://docs.oasis-open.org/ns/energyinterop/201110/payloads"">{{ response.request_id }}</requestID>
    </ei:eiResponse>
    <ei:optID>{{ opt_id }}</ei:optID>
  </oadr:oadrCanceledOpt>
</oadr:oadrSignedObject>".

(** templates/oadrCanceledPartyRegistration.xml:1-11 *)
Definition t_oadrCanceledPartyRegistration : string := "<oadr:oadrSignedObject xmlns:oadr=""http://openadr.org/oadr-2.0b/2012/07"" oadr:Id=""oadrSignedObject"">
  <oadr:oadrCanceledPartyRegistration ei:schemaVersion=""2.0b"" xmlns:ei=""http://docs.oasis-open.org/ns/energyinterop/201110"">
    <ei:eiResponse>
      <ei:responseCode>{{ response.response_code }}</ei:responseCode>
      <ei:responseDescription>{{ response.response_description }}</ei:responseDescription>
      <requestID xmlns=""http://docs.oasis-open.org/ns/energyinterop/201110/payloads"">{{ response.request_id }}</requestID>
    </ei:eiResponse>
    <ei:registrationID>{{ registration_id }}</ei:registrationID>
    <ei:venID>{{ ven_id }}</ei:venID>
  </oadr:oadrCanceledPartyRegistration>
</oadr:oadrSignedObject>".

(** templates/oadrCanceledReport.xml:1-17 *)
Definition t_oadrCanceledReport : string := "<oadr:oadrSignedObject xmlns:oadr=""http://openadr.org/oadr-2.0b/2012/07"" oadr:Id=""oadrSignedObject"">
  <oadr:oadrCanceledReport ei:schemaVersion=""2.0b"" xmlns:ei=""http://docs.oasis-open.org/ns/energyinterop/201110"">
    <ei:eiResponse>
      <ei:responseCode>{{ response.response_code }}</ei:responseCode>
      <ei:responseDescription>{{ response.response_description }}</ei:responseDescription>
      <requestID xmlns=""http://docs.oasis-open.org/ns/energyinterop/201110/payloads"">{{ response.request_id }}</requestID>
    </ei:eiResponse>
    <oadr:oadrPendingReports>
      {% for pending_report in pending_reports %}
      <ei:reportRequestID>{{ pending_report.report_request_id }}</ei:reportRequestID>
      {% endfor %}
    </oadr:oadrPendingReports>
    {% if ven_id is defined and ven_id is not none %}
    <ei:venID>{{ ven_id }}</ei:venID>
    {% endif %}
  </oadr:oadrCanceledReport>
</oadr:oadrSignedObject>".

(** templates/oadrCreateOpt.xml:1-49 *)
Definition t_oadrCreateOpt : string := "<oadr:oadrSignedObject oadr:Id=""oadrSignedObject"" xmlns:oadr=""http://openadr.org/oadr-2.0b/2012/07"">
  <oadr:oadrCreateOpt ei:schemaVersion=""2.0b"" xmlns:ei=""http://docs.oasis-open.org/ns/energyinterop/201110"" xmlns:emix=""http://docs.oasis-open.org/ns/emix/2011/06"" xmlns:power=""http://docs.oasis-open.org/ns/emix/2011/06/power"" xmlns:xcal=""urn:ietf:params:xml:ns:icalendar-2.0"">
    <ei:optID>{{ opt_id }}</ei:optID>
    <ei:optType>{{ opt_type }}</ei:optType>
    <ei:optReason>{{ opt_reason }}</ei:optReason>
    {% if market_context is defined and market_context is not none %}
    <emix:marketContext>{{ market_context }}</emix:marketContext>
    {% endif %}
    <ei:venID>{{ ven_id }}</ei:venID>
    {% if vavailability is defined and vavailability is not none %}
    <xcal:vavailability>
      <xcal:components>
        {% for component in vavailability.components %}
        <xcal:available>
          <xcal:properties>
            <xcal:dtstart>
              <xcal:date-time>{{ component.dtstart|datetimeformat }}</xcal:date-time>
            </xcal:dtstart>
            <xcal:duration>
              <xcal:duration>{{ component.duration|timedeltaformat }}</xcal:duration>
            </xcal:duration>
          </xcal:properties>
        </xcal:available>{% endfor %}</xcal:components>
    </xcal:vavailability>
    {% endif %}
    <ei:createdDateTime>{{ created_date_time|datetimeformat }}</ei:createdDateTime>
    <requestID xmlns=""http://docs.oasis-open.org/ns/energyinterop/201110/payloads"">{{ request_id }}</requestID>
    {% if event_id is defined and event_id is not none %}
    <ei:qualifiedEventID>
      <ei:eventID>{{ event_id }}</ei:eventID>
      <ei:modificationNumber>{{ modification_number }}</ei:modificationNumber>
    </ei:qualifiedEventID>
    {% endif %}
    {% if targets is defined and targets is not none and targets|length > 0 %}
    {% for target in targets %}
    {% include 'parts/eiTarget.xml' %}
    {% endfor %}
    {% else %}
    <ei:eiTarget/>
    {% endif %}
    {% if signal_target_mrid is defined and signal_target_mrid is not none %}
    <oadr:oadrDeviceClass>
				<power:endDeviceAsset>
					<power:mrid>{{ signal_target_mrid }}</power:mrid>
				</power:endDeviceAsset>
		</oadr:oadrDeviceClass>
    {% endif %}
  </oadr:oadrCreateOpt>
</oadr:oadrSignedObject>".

(** templates/oadrCreatePartyRegistration.xml:1-18 *)
Definition t_oadrCreatePartyRegistration : string := "<oadr:oadrSignedObject xmlns:oadr=""http://openadr.org/oadr-2.0b/2012/07"" oadr:Id=""oadrSignedObject"">
  <oadr:oadrCreatePartyRegistration ei:schemaVersion=""2.0b"" xmlns:ei=""http://docs.oasis-open.org/ns/energyinterop/201110"">
    <requestID xmlns=""http://docs.oasis-open.org/ns/energyinterop/201110/payloads"">{{ request_id }}</requestID>
    {% if registration_id is defined and registration_id is not none %}
    <ei:registrationID>{{ registration_id }}</ei:registrationID>
    {% endif %}
    {% if ven_id is defined and ven_id is not none %}
    <ei:venID>{{ ven_id }}</ei:venID>
    {% endif %}
    <oadr:oadrProfileName>{{ profile_name }}</oadr:oadrProfileName>
    <oadr:oadrTransportName>{{ transport_name }}</oadr:oadrTransportName>
    <oadr:oadrTransportAddress>{{ transport_address }}</oadr:oadrTransportAddress>
    <oadr:oadrReportOnly>{{ report_only|booleanformat }}</oadr:oadrReportOnly>
    <oadr:oadrXmlSignature>{{ xml_signature|booleanformat }}</oadr:oadrXmlSignature>
    <oadr:oadrVenName>{{ ven_name }}</oadr:oadrVenName>
    <oadr:oadrHttpPullModel>{{ http_pull_model|booleanformat }}</oadr:oadrHttpPullModel>
  </oadr:oadrCreatePartyRegistration>
</oadr:oadrSignedObject>".

(** templates/oadrCreateReport.xml:1-9 *)
Definition t_oadrCreateReport : string := "<oadr:oadrSignedObject xmlns:oadr=""http://openadr.org/oadr-2.0b/2012/07"" oadr:Id=""oadrSignedObject"">
  <oadr:oadrCreateReport ei:schemaVersion=""2.0b"" xmlns:ei=""http://docs.oasis-open.org/ns/energyinterop/201110"">
    <requestID xmlns=""http://docs.oasis-open.org/ns/energyinterop/201110/payloads"">{{ request_id }}</requestID>
    {% for report_request in report_requests %}
    {% include 'parts/oadrReportRequest.xml' %}
    {% endfor %}
    <ei:venID>{{ ven_id }}</ei:venID>
  </oadr:oadrCreateReport>
</oadr:oadrSignedObject>".

(** templates/oadrCreatedEvent.xml:1-34 *)
Definition t_oadrCreatedEvent : string := "<oadr:oadrSignedObject xmlns:oadr=""http://openadr.org/oadr-2.0b/2012/07"" oadr:Id=""oadrSignedObject"">
  <oadr:oadrCreatedEvent ei:schemaVersion=""2.0b"" xmlns:ei=""http://docs.oasis-open.org/ns/energyinterop/201110"">
    <eiCreatedEvent xmlns=""http://docs.oasis-open.org/ns/energyinterop/201110/payloads"">
      <ei:eiResponse>
        <ei:responseCode>{{ response.response_code }}</ei:responseCode>
        <ei:responseDescription>{{ response.response_description }}</ei:responseDescription>
        {% if (event_responses is not defined or event_responses is none) and (response.request_id is defined and response.request_id is not none) %}
        <requestID xmlns=""http://docs.oasis-open.org/ns/energyinterop/201110/payloads"">{{ response.request_id }}</requestID>
        {% else %}
        <requestID xmlns=""http://docs.oasis-open.org/ns/energyinterop/201110/payloads""></requestID>
        {% endif %}
      </ei:eiResponse>
      {% if event_responses is defined and event_responses is not none %}
      <ei:eventResponses>
        {% for event_response in event_responses %}
        <ei:eventResponse>
          <ei:responseCode>{{ event_response.response_code }}</ei:responseCode>
          {% if event_response.response_description is defined and event_response.response_description is not none %}
          <ei:responseDescription>{{ event_response.response_description }}</ei:responseDescription>
          {% endif %}
          <requestID xmlns=""http://docs.oasis-open.org/ns/energyinterop/201110/payloads"">{{ event_response.request_id }}</requestID>
          <ei:qualifiedEventID>
            <ei:eventID>{{ event_response.event_id }}</ei:eventID>
            <ei:modificationNumber>{{ event_response.modification_number }}</ei:modificationNumber>
          </ei:qualifiedEventID>
          <ei:optType>{{ event_response.opt_type }}</ei:optType>
        </ei:eventResponse>
        {% endfor %}
      </ei:eventResponses>
      {% endif %}
      <ei:venID>{{ ven_id }}</ei:venID>
    </eiCreatedEvent>
  </oadr:oadrCreatedEvent>
</oadr:oadrSignedObject>".

(** templates/oadrCreatedOpt.xml:1-10 *)
Definition t_oadrCreatedOpt : string := "<oadr:oadrSignedObject xmlns:oadr=""http://openadr.org/oadr-2.0b/2012/07"" oadr:Id=""oadrSignedObject"">
  <oadr:oadrCreatedOpt ei:schemaVersion=""2.0b"" xmlns:ei=""http://docs.oasis-open.org/ns/energyinterop/201110"">
    <ei:eiResponse>
      <ei:responseCode>{{ response.response_code }}</ei:responseCode>
      <ei:responseDescription>{{ response.response_description }}</ei:responseDescription>
      <requestID xmlns=""http://docs.oasis-open.org/ns/energyinterop/201110/payloads"">{{ response.request_id }}</requestID>
    </ei:eiResponse>
    <ei:optID>{{ opt_id }}</ei:optID>
  </oadr:oadrCreatedOpt>
</oadr:oadrSignedObject>".

(** templates/oadrCreatedPartyRegistration.xml:1-41 *)
Definition t_oadrCreatedPartyRegistration : string := "<oadr:oadrSignedObject xmlns:oadr=""http://openadr.org/oadr-2.0b/2012/07"" oadr:Id=""oadrSignedObject"">
  <oadr:oadrCreatedPartyRegistration ei:schemaVersion=""2.0b"" xmlns:ei=""http://docs.oasis-open.org/ns/energyinterop/201110"">
    <ei:eiResponse>
      <ei:responseCode>{{ response.response_code }}</ei:responseCode>
      <ei:responseDescription>{{ response.response_description }}</ei:responseDescription>
      <requestID xmlns=""http://docs.oasis-open.org/ns/energyinterop/201110/payloads"">{{ response.request_id }}</requestID>
    </ei:eiResponse>
    {% if registration_id is defined and registration_id is not none %}
    <ei:registrationID>{{ registration_id }}</ei:registrationID>
    {% else %}
    <ei:registrationID />
    {% endif %}

    {% if ven_id is defined and ven_id is not none %}
    <ei:venID>{{ ven_id }}</ei:venID>
    {% else %}
    <ei:venID />
    {% endif %}

    <ei:vtnID>{{ vtn_id }}</ei:vtnID>
    <oadr:oadrProfiles>
    {% for profile in profiles %}
      <oadr:oadrProfile>
        <oadr:oadrProfileName>{{ profile.profile_name }}</oadr:oadrProfileName>
        <oadr:oadrTransports>
          {% for transport in profile.transports %}
          <oadr:oadrTransport>
            <oadr:oadrTransportName>{{ transport.transport_name }}</oadr:oadrTransportName>
          </oadr:oadrTransport>
          {% endfor %}
        </oadr:oadrTransports>
      </oadr:oadrProfile>
    {% endfor %}
    </oadr:oadrProfiles>
    {% if requested_oadr_poll_freq is defined and requested_oadr_poll_freq is not none %}
    <oadr:oadrRequestedOadrPollFreq>
      <duration xmlns=""urn:ietf:params:xml:ns:icalendar-2.0"">{{ requested_oadr_poll_freq|timedeltaformat }}</duration>
    </oadr:oadrRequestedOadrPollFreq>
    {% endif %}
  </oadr:oadrCreatedPartyRegistration>
</oadr:oadrSignedObject>
".

(** templates/oadrCreatedReport.xml:1-17 *)
Definition t_oadrCreatedReport : string := "<oadr:oadrSignedObject xmlns:oadr=""http://openadr.org/oadr-2.0b/2012/07"" oadr:Id=""oadrSignedObject"">
  <oadr:oadrCreatedReport ei:schemaVersion=""2.0b"" xmlns:ei=""http://docs.oasis-open.org/ns/energyinterop/201110"">
    <ei:eiResponse>
      <ei:responseCode>{{ response.response_code }}</ei:responseCode>
      <ei:responseDescription>{{ response.response_description }}</ei:responseDescription>
      <requestID xmlns=""http://docs.oasis-open.org/ns/energyinterop/201110/payloads"">{{ response.request_id }}</requestID>
    </ei:eiResponse>
    <oadr:oadrPendingReports>
      {% for pending_report in pending_reports %}
      <ei:reportRequestID>{{ pending_report.report_request_id }}</ei:reportRequestID>
      {% endfor %}
    </oadr:oadrPendingReports>
    {% if ven_id is defined and ven_id is not none %}
    <ei:venID>{{ ven_id }}</ei:venID>
    {% endif %}
  </oadr:oadrCreatedReport>
</oadr:oadrSignedObject>".

(** templates/oadrDistributeEvent.xml:1-16 *)
Definition t_oadrDistributeEvent : string := "<oadr:oadrSignedObject xmlns:oadr=""http://openadr.org/oadr-2.0b/2012/07"" oadr:Id=""oadrSignedObject"">
  <oadr:oadrDistributeEvent ei:schemaVersion=""2.0b"" xmlns:ei=""http://docs.oasis-open.org/ns/energyinterop/201110"">
    {% if response is defined and response is not none %}
    <ei:eiResponse>
      <ei:responseCode>{{ response.response_code }}</ei:responseCode>
      <ei:responseDescription>{{ response.response_description }}</ei:responseDescription>
      <requestID xmlns=""http://docs.oasis-open.org/ns/energyinterop/201110/payloads"">{{ response.request_id }}</requestID>
    </ei:eiResponse>
    {% endif %}
    <requestID xmlns=""http://docs.oasis-open.org/ns/energyinterop/201110/payloads"">{{ request_id }}</requestID>
    <ei:vtnID>{{ vtn_id }}</ei:vtnID>
    {% for event in events %}
        {% include 'parts/eiEvent.xml' %}
    {% endfor %}
  </oadr:oadrDistributeEvent>
</oadr:oadrSignedObject>".

(** templates/oadrPayload.xml:1-5 *)
Definition t_oadrPayload : string := "<?xml version=""1.0"" encoding=""utf-8""?>
<oadr:oadrPayload xmlns:oadr=""http://openadr.org/oadr-2.0b/2012/07"">
{% if signature: %}{{ signature|safe }}{% endif %}
{{ signed_object|safe }}
</oadr:oadrPayload>".

(** templates/oadrPoll.xml:1-5 *)
Definition t_oadrPoll : string := "<oadr:oadrSignedObject xmlns:oadr=""http://openadr.org/oadr-2.0b/2012/07"" oadr:Id=""oadrSignedObject"">
  <oadr:oadrPoll ei:schemaVersion=""2.0b"" xmlns:ei=""http://docs.oasis-open.org/ns/energyinterop/201110"">
    <ei:venID>{{ ven_id }}</ei:venID>
  </oadr:oadrPoll>
</oadr:oadrSignedObject>".

(** templates/oadrQueryRegistration.xml:1-5 *)
Definition t_oadrQueryRegistration : string := "<oadr:oadrSignedObject xmlns:oadr=""http://openadr.org/oadr-2.0b/2012/07"" oadr:Id=""oadrSignedObject"">
  <oadr:oadrQueryRegistration ei:schemaVersion=""2.0b"" xmlns:ei=""http://docs.oasis-open.org/ns/energyinterop/201110"">
    <requestID xmlns=""http://docs.oasis-open.org/ns/energyinterop/201110/payloads"">{{ request_id }}</requestID>
  </oadr:oadrQueryRegistration>
</oadr:oadrSignedObject>".

(** templates/oadrRegisterReport.xml:1-31 *)
Definition t_oadrRegisterReport : string := "<oadr:oadrSignedObject xmlns:oadr=""http://openadr.org/oadr-2.0b/2012/07"" oadr:Id=""oadrSignedObject"">
  <oadr:oadrRegisterReport ei:schemaVersion=""2.0b"" xmlns:ei=""http://docs.oasis-open.org/ns/energyinterop/201110"">
    <requestID xmlns=""http://docs.oasis-open.org/ns/energyinterop/201110/payloads"">{{ request_id }}</requestID>
{% for report in reports %}
    <oadr:oadrReport xmlns:xcal=""urn:ietf:params:xml:ns:icalendar-2.0"" xmlns:strm=""urn:ietf:params:xml:ns:icalendar-2.0:stream"">
      {% if report.duration is defined and report.duration is not none %}
      <xcal:duration>
        <xcal:duration>{{ report.duration|timedeltaformat }}</xcal:duration>
      </xcal:duration>
      {% endif %}
      {% if report.report_id is defined and report.report_id is not none and not report.report_name.startswith('METADATA') %}
      <ei:eiReportID>{{ report.report_id }}</ei:eiReportID>
      {% endif %}
  {% for report_description in report.report_descriptions %}
      {% include 'parts/oadrReportDescription.xml' %}
  {% endfor %}
      {% if report.report_request_id is defined and report.report_request_id is not none %}
      <ei:reportRequestID>{{ report.report_request_id }}</ei:reportRequestID>
      {% else %}
      <ei:reportRequestID>0</ei:reportRequestID>
      {% endif %}
      <ei:reportSpecifierID>{{ report.report_specifier_id }}</ei:reportSpecifierID>
      <ei:reportName>{{ report.report_name }}</ei:reportName>
      <ei:createdDateTime>{{ report.created_date_time|datetimeformat }}</ei:createdDateTime>
    </oadr:oadrReport>
{% endfor %}
    {% if ven_id is defined and ven_id is not none %}
    <ei:venID>{{ ven_id }}</ei:venID>
    {% endif %}
  </oadr:oadrRegisterReport>
</oadr:oadrSignedObject>".

(** templates/oadrRegisteredReport.xml:1-15 *)
Definition t_oadrRegisteredReport : string := "<oadr:oadrSignedObject xmlns:oadr=""http://openadr.org/oadr-2.0b/2012/07"" oadr:Id=""oadrSignedObject"">
  <oadr:oadrRegisteredReport ei:schemaVersion=""2.0b"" xmlns:ei=""http://docs.oasis-open.org/ns/energyinterop/201110"">
    <ei:eiResponse>
      <ei:responseCode>{{ response.response_code }}</ei:responseCode>
      <ei:responseDescription>{{ response.response_description }}</ei:responseDescription>
      <requestID xmlns=""http://docs.oasis-open.org/ns/energyinterop/201110/payloads"">{{ response.request_id }}</requestID>
    </ei:eiResponse>
    {% for report_request in report_requests %}
    {% include 'parts/oadrReportRequest.xml' %}
    {% endfor %}
    {% if ven_id is defined and ven_id is not none %}
    <ei:venID>{{ ven_id }}</ei:venID>
    {% endif %}
  </oadr:oadrRegisteredReport>
</oadr:oadrSignedObject>".

(** templates/oadrRequestEvent.xml:1-11 *)
Definition t_oadrRequestEvent : string := "<oadr:oadrSignedObject xmlns:oadr=""http://openadr.org/oadr-2.0b/2012/07"" oadr:Id=""oadrSignedObject"">
  <oadr:oadrRequestEvent ei:schemaVersion=""2.0b"" xmlns:ei=""http://docs.oasis-open.org/ns/energyinterop/201110"">
    <eiRequestEvent xmlns=""http://docs.oasis-open.org/ns/energyinterop/201110/payloads"">
      <requestID>{{ request_id }}</requestID>
      <ei:venID>{{ ven_id }}</ei:venID>
      {% if reply_limit is defined and reply_limit is not none %}
      <replyLimit>{{ reply_limit }}</replyLimit>
      {% endif %}
    </eiRequestEvent>
  </oadr:oadrRequestEvent>
</oadr:oadrSignedObject>
".

(** templates/oadrRequestReregistration.xml:1-5 *)
Definition t_oadrRequestReregistration : string := "<oadr:oadrSignedObject xmlns:oadr=""http://openadr.org/oadr-2.0b/2012/07"" oadr:Id=""oadrSignedObject"">
  <oadr:oadrRequestReregistration ei:schemaVersion=""2.0b"" xmlns:ei=""http://docs.oasis-open.org/ns/energyinterop/201110"">
    <ei:venID>{{ ven_id }}</ei:venID>
  </oadr:oadrRequestReregistration>
</oadr:oadrSignedObject>".

(** templates/oadrResponse.xml:1-14 *)
Definition t_oadrResponse : string := "<oadr:oadrSignedObject xmlns:oadr=""http://openadr.org/oadr-2.0b/2012/07"" oadr:Id=""oadrSignedObject"">
  <oadr:oadrResponse ei:schemaVersion=""2.0b"" xmlns:ei=""http://docs.oasis-open.org/ns/energyinterop/201110"">
    <ei:eiResponse>
      <ei:responseCode>{{ response.response_code }}</ei:responseCode>
      <ei:responseDescription>{{ response.response_description }}</ei:responseDescription>
      {% if response.request_id is defined and response.request_id is not none %}
      <requestID xmlns=""http://docs.oasis-open.org/ns/energyinterop/201110/payloads"">{{ response.request_id }}</requestID>
      {% else %}
      <requestID xmlns=""http://docs.oasis-open.org/ns/energyinterop/201110/payloads"" />
      {% endif %}
    </ei:eiResponse>
    <ei:venID>{{ ven_id }}</ei:venID>
  </oadr:oadrResponse>
</oadr:oadrSignedObject>".

(** templates/oadrUpdateReport.xml:1-64 *)
Definition t_oadrUpdateReport : string := "<oadr:oadrSignedObject xmlns:oadr=""http://openadr.org/oadr-2.0b/2012/07"" xmlns:pyld=""http://docs.oasis-open.org/ns/energyinterop/201110/payloads"" xmlns:emix=""http://docs.oasis-open.org/ns/emix/2011/06"" oadr:Id=""oadrSignedObject"">
  <oadr:oadrUpdateReport ei:schemaVersion=""2.0b"" xmlns:ei=""http://docs.oasis-open.org/ns/energyinterop/201110"">
    <pyld:requestID>{{ request_id }}</pyld:requestID>
    {% if reports %}
    {% for report in reports %}
    <oadr:oadrReport xmlns:xcal=""urn:ietf:params:xml:ns:icalendar-2.0"">
      {% if report.dtstart is defined and report.dtstart is not none %}
      <xcal:dtstart>
        <xcal:date-time>{{ report.dtstart|datetimeformat }}</xcal:date-time>
      </xcal:dtstart>
      {% endif %}

      {% if report.intervals %}
      <strm:intervals xmlns:strm=""urn:ietf:params:xml:ns:icalendar-2.0:stream"" xmlns:xcal=""urn:ietf:params:xml:ns:icalendar-2.0"">
        {% for interval in report.intervals %}
        <ei:interval>
          <xcal:dtstart>
            <xcal:date-time>{{ interval.dtstart|datetimeformat }}</xcal:date-time>
          </xcal:dtstart>
          {% if interval.duration is defined and interval.duration is not none %}
          <xcal:duration>
            <xcal:duration>{{ interval.duration|timedeltaformat }}</xcal:duration>
          </xcal:duration>
          {% endif %}
          <oadr:oadrReportPayload>
            <ei:rID>{{ interval.report_payload.r_id }}</ei:rID>
            {% if interval.report_payload.confidence is defined and interval.report_payload.confidence is not none %}
            <ei:confidence>{{ interval.report_payload.confidence }}</ei:confidence>
            {% endif %}
            {% if interval.report_payload.accuracy is defined and interval.report_payload.accuracy is not none %}
            <ei:accuracy>{{ interval.report_payload.accuracy }}</ei:accuracy>
            {% endif %}
            <ei:payloadFloat>
              <ei:value>{{ interval.report_payload.value }}</ei:value>
            </ei:payloadFloat>
            {% if interval.report_payload.data_quality is defined and interval.report_payload.data_quality is not none %}
            <oadr:oadrDataQuality>{{ interval.report_payload.data_quality }}</oadr:oadrDataQuality>
            {% endif %}
          </oadr:oadrReportPayload>
        </ei:interval>
        {% endfor %}
      </strm:intervals>
      {% endif %}

      <ei:eiReportID>{{ report.report_id }}</ei:eiReportID>
      {% if report.report_descriptions %}
      {% for report_description in report.report_descriptions %}
      {% include 'parts/oadrReportDescription.xml' %}
      {% endfor %}
      {% endif %}
      <ei:reportRequestID>{{ report.report_request_id }}</ei:reportRequestID>
      <ei:reportSpecifierID>{{ report.report_specifier_id }}</ei:reportSpecifierID>
      {% if report.report_name %}
      <ei:reportName>{{ report.report_name }}</ei:reportName>
      {% endif %}
      <ei:createdDateTime>{{ report.created_date_time|datetimeformat }}</ei:createdDateTime>
    </oadr:oadrReport>
    {% endfor %}
    {% endif %}
    {% if ven_id is defined and ven_id is not none %}
    <ei:venID>{{ ven_id }}</ei:venID>
    {% endif %}
  </oadr:oadrUpdateReport>
</oadr:oadrSignedObject>
".

(** templates/oadrUpdatedReport.xml:1-28 *)
Definition t_oadrUpdatedReport : string := "<oadr:oadrSignedObject xmlns:oadr=""http://openadr.org/oadr-2.0b/2012/07"" oadr:Id=""oadrSignedObject"">
  <oadr:oadrUpdatedReport ei:schemaVersion=""2.0b"" xmlns:ei=""http://docs.oasis-open.org/ns/energyinterop/201110"" xmlns:pyld=""http://docs.oasis-open.org/ns/energyinterop/201110/payloads"">
    <ei:eiResponse>
      <ei:responseCode>{{ response.response_code }}</ei:responseCode>
      <ei:responseDescription>{{ response.response_description }}</ei:responseDescription>
      {% if response.request_id is defined and response.request_id is not none %}
      <pyld:requestID>{{ response.request_id }}</pyld:requestID>
      {% else %}
      <pyld:requestID />
      {% endif %}
    </ei:eiResponse>
    {% if cancel_report is defined and cancel_report is not none %}
    <oadr:oadrCancelReport>
      <pyld:requestID>{{ cancel_report.request_id }}</pyld:requestID>
      {% for report_request_id in cancel_report.report_request_id %}
      <ei:reportRequestID>{{ report_request_id }}</ei:reportRequestID>
      {% endfor %}
      <pyld:reportToFollow>{{ cancel_report.report_to_follow|booleanformat }}</pyld:reportToFollow>
      {% if cancel_report.ven_id %}
      <ei:venID>{{ cancel_report.ven_id }}</ei:venID>
      {% endif %}
    </oadr:oadrCancelReport>
    {% endif %}
    {% if ven_id is defined and ven_id is not none %}
    <ei:venID>{{ ven_id }}</ei:venID>
    {% endif %}
  </oadr:oadrUpdatedReport>
</oadr:oadrSignedObject>".

(** templates/parts/eiActivePeriod.xml:1-33 *)
Definition t_part_eiActivePeriod : string := "<ei:eiActivePeriod>
    <properties xmlns=""urn:ietf:params:xml:ns:icalendar-2.0"">
        <dtstart>
            <date-time>{{ event.active_period.dtstart|datetimeformat }}</date-time>
        </dtstart>
        <duration>
            <duration>{{ event.active_period.duration|timedeltaformat }}</duration>
        </duration>
        {% if event.active_period.tolerance %}
        <tolerance>
            <tolerate>
                <startafter>{{ event.active_period.tolerance.startafter|timedeltaformat }}</startafter>
            </tolerate>
        </tolerance>
        {% endif %}
        {% if event.active_period.notification_period %}
        <ei:x-eiNotification>
            <duration>{{ event.active_period.notification_period|timedeltaformat }}</duration>
        </ei:x-eiNotification>
        {% endif %}
        {% if event.active_period.ramp_up_period %}
        <ei:x-eiRampUp>
            <duration>{{ event.active_period.ramp_up_period|timedeltaformat }}</duration>
        </ei:x-eiRampUp>
        {% endif %}
        {% if event.active_period.recovery_period %}
        <ei:x-eiRecovery>
            <duration>{{ event.active_period.recovery_period|timedeltaformat }}</duration>
        </ei:x-eiRecovery>
        {% endif %}
    </properties>
    <components xmlns=""urn:ietf:params:xml:ns:icalendar-2.0"" />
</ei:eiActivePeriod>".

(** templates/parts/eiEvent.xml:1-22 *)
Definition t_part_eiEvent : string := "<oadr:oadrEvent>
    <ei:eiEvent>
        {% include 'parts/eiEventDescriptor.xml' %}
        {% include 'parts/eiActivePeriod.xml' %}
        <ei:eiEventSignals>
            {% for event_signal in event.event_signals %}
                {% include 'parts/eiEventSignal.xml' %}
            {% endfor %}
        </ei:eiEventSignals>
        {% if event.report_requests %}
        <ei:eiReportRequests>
            {% for report_request in event.report_requests %}
            {% include 'parts/eiReportRequest.xml' %}
            {% endfor %}
        </ns1>
        {% endif %}
        {% if event.targets is defined and event.targets is not none %}
        {% include 'parts/eiEventTarget.xml' %}
        {% endif %}
    </ei:eiEvent>
    <oadr:oadrResponseRequired>{{ event.response_required }}</oadr:oadrResponseRequired>
</oadr:oadrEvent>".

(** templates/parts/eiEventDescriptor.xml:1-24 *)
Definition t_part_eiEventDescriptor : string := "<ei:eventDescriptor>
    <ei:eventID>{{ event.event_descriptor.event_id }}</ei:eventID>
    <ei:modificationNumber>{{ event.event_descriptor.modification_number }}</ei:modificationNumber>
    {% if event.event_descriptor.modification_date_time is defined and event.event_descriptor.modification_date_time is not none %}
    <ei:modificationDateTime>{{ event.event_descriptor.modification_date_time|datetimeformat }}</ei:modificationDateTime>
    {% endif %}
    {% if event.event_descriptor.modification_reason is defined and event.event_descriptor.modification_reason is not none %}
    <ei:modificationReason>{{ event.event_descriptor.modification_reason }}</ei:modificationReason>
    {% endif %}
    {%if event.event_descriptor.priority is not none %}
    <ei:priority>{{ event.event_descriptor.priority }}</ei:priority>
    {% endif %}
    <ei:eiMarketContext>
        <marketContext xmlns=""http://docs.oasis-open.org/ns/emix/2011/06"">{{ event.event_descriptor.market_context }}</marketContext>
    </ei:eiMarketContext>
    <ei:createdDateTime>{{ event.event_descriptor.created_date_time|datetimeformat }}</ei:createdDateTime>
    <ei:eventStatus>{{ event.event_descriptor.event_status }}</ei:eventStatus>
    {% if event.event_descriptor.test_event is defined and event.event_descriptor.test_event is not none %}
    <ei:testEvent>{{ event.event_descriptor.test_event|booleanformat }}</ei:testEvent>
    {% endif %}
    {% if event.event_descriptor.vtn_comment is defined and event.event_descriptor.vtn_comment is not none %}
    <ei:vtnComment>{{ event.event_descriptor.vtn_comment }}</ei:vtnComment>
    {% endif %}
</ei:eventDescriptor>".

(** templates/parts/eiEventSignal.xml:1-37 *)
Definition t_part_eiEventSignal : string := "<ei:eiEventSignal>
    <strm:intervals xmlns:strm=""urn:ietf:params:xml:ns:icalendar-2.0:stream"" xmlns:xcal=""urn:ietf:params:xml:ns:icalendar-2.0"">
    {% for interval in event_signal.intervals %}
        <ei:interval>
            {% if interval.dtstart is defined and interval.dtstart is not none %}
            <xcal:dtstart>
                <xcal:date-time>{{ interval.dtstart|datetimeformat }}</xcal:date-time>
            </xcal:dtstart>
            {% endif %}
            {% if interval.duration is defined and interval.duration is not none %}
            <xcal:duration>
                <xcal:duration>{{ interval.duration|timedeltaformat }}</xcal:duration>
            </xcal:duration>
            {% endif %}
            <uid xmlns=""urn:ietf:params:xml:ns:icalendar-2.0"">
                <text>{{ loop.index0 }}</text>
            </uid>
            <ei:signalPayload>
                <ei:payloadFloat>
                    <ei:value>{{ interval.signal_payload }}</ei:value>
                </ei:payloadFloat>
            </ei:signalPayload>
        </ei:interval>
    {% endfor %}
    </strm:intervals>
    <ei:signalName>{{ event_signal.signal_name }}</ei:signalName>
    <ei:signalType>{{ event_signal.signal_type }}</ei:signalType>
    <ei:signalID>{{ event_signal.signal_id }}</ei:signalID>
    {% include 'parts/eventSignalEmix.xml' %}
    {% if event_signal.current_value is defined and event_signal.current_value is not none %}
    <ei:currentValue>
        <ei:payloadFloat>
            <ei:value>{{ event_signal.current_value }}</ei:value>
        </ei:payloadFloat>
    </ei:currentValue>
    {% endif %}
</ei:eiEventSignal>".

(** templates/parts/eiEventTarget.xml:1-39 *)
Definition t_part_eiEventTarget : string := "<ei:eiTarget>
    {% for target in event.targets %}
        {% if target.emix_interfaces %}
            {% for emix_interface in target.emix_interface %}
                {% include 'parts/emixInterface.xml' %}
            {% endfor %}
        {% endif %}
    {% endfor %}

    {% for target in event.targets %}
        {% if target.group_id %}
            <ei:groupID>{{ target.group_id }}</ei:groupID>
        {% endif %}
    {% endfor %}

    {% for target in event.targets %}
        {% if target.group_name %}
            <ei:groupName>{{ target.group_name }}</ei:groupName>
        {% endif %}
    {% endfor %}

    {% for target in event.targets %}
        {% if target.resource_id %}
            <ei:resourceID>{{ target.resource_id }}</ei:resourceID>
        {% endif %}
    {% endfor %}

    {% for target in event.targets %}
        {% if target.ven_id %}
            <ei:venID>{{ target.ven_id }}</ei:venID>
        {% endif %}
    {% endfor %}

    {% for target in event.targets %}
        {% if target.party_id %}
            <ei:partyID>{{ target.party_id }}</ei:partyID>
        {% endif %}
    {% endfor %}
</ei:eiTarget>".

(** templates/parts/eiTarget.xml:1-27 *)
Definition t_part_eiTarget : string := "<ei:eiTarget>
    {% if target.emix_interfaces is defined and target.emix_interfaces is not none %}
        {% for emix_interface in target.emix_interface %}
            {% include 'parts/emixInterface.xml' %}
        {% endfor %}
    {% endif %}

    {% if target.group_id is defined and target.group_id is not none %}
        <ei:groupID>{{ target.group_id }}</ei:groupID>
    {% endif %}

    {% if target.group_name is defined and target.group_name is not none %}
        <ei:groupName>{{ target.group_name }}</ei:groupName>
    {% endif %}

    {% if target.resource_id is defined and target.resource_id is not none %}
        <ei:resourceID>{{ target.resource_id }}</ei:resourceID>
    {% endif %}

    {% if target.ven_id is defined and target.ven_id is not none %}
        <ei:venID>{{ target.ven_id }}</ei:venID>
    {% endif %}

    {% if target.party_id is defined and target.party_id is not none %}
        <ei:partyID>{{ target.party_id }}</ei:partyID>
    {% endif %}
</ei:eiTarget>".

(** templates/parts/emixInterface.xml:1-4 *)
Definition t_part_emixInterface : string := "<ei:marketContext></ei:marketContext>
<ei:serviceArea>
    <FeatureCollection xmlns:gml=""http://www.opengis.net/gml/3.2"">
</ei:serviceArea>".

(** templates/parts/eventSignalEmix.xml:1-16 *)
Definition t_part_eventSignalEmix : string := "  {% if event_signal.measurement is defined and event_signal.measurement is not none %}
  <{{ event_signal.measurement.ns }}:{{ event_signal.measurement.name }} xmlns:scale=""http://docs.oasis-open.org/ns/emix/2011/06/siscale"" xmlns:power=""http://docs.oasis-open.org/ns/emix/2011/06/power"" >
    <{{ event_signal.measurement.ns }}:itemDescription>{{ event_signal.measurement.description }}</{{ event_signal.measurement.ns }}:itemDescription>
    <{{ event_signal.measurement.ns }}:itemUnits>{{ event_signal.measurement.unit }}</{{ event_signal.measurement.ns }}:itemUnits>
    {% if event_signal.measurement.pulse_factor %}<oadr:pulseFactor>{{ event_signal.measurement.pulse_factor }}</oadr:pulseFactor>{% else %}
    <scale:siScaleCode>{{ event_signal.measurement.scale }}</scale:siScaleCode>
    {% endif %}
    {% if event_signal.measurement.power_attributes %}
    <power:powerAttributes>
      <power:hertz>{{ event_signal.measurement.power_attributes.hertz }}</power:hertz>
      <power:voltage>{{ event_signal.measurement.power_attributes.voltage }}</power:voltage>
      <power:ac>{{ event_signal.measurement.power_attributes.ac|booleanformat }}</power:ac>
    </power:powerAttributes>
    {% endif %}
  </{{ event_signal.measurement.ns }}:{{ event_signal.measurement.name }}>
  {% endif %}".

(** templates/parts/oadrReportDescription.xml:1-53 *)
Definition t_part_oadrReportDescription : string := "<oadr:oadrReportDescription xmlns:emix=""http://docs.oasis-open.org/ns/emix/2011/06"" xmlns:power=""http://docs.oasis-open.org/ns/emix/2011/06/power"">
  <ei:rID>{{ report_description.r_id }}</ei:rID>
  {% if report_description.report_subject and report_description.report_subject.end_device_asset.mrid %}
  <ei:reportSubject>
    <power:endDeviceAsset>
      <power:mrid>{{ report_description.report_subject.end_device_asset.mrid }}</power:mrid>
    </power:endDeviceAsset>
  </ei:reportSubject>
  {% endif %}

  {% if report_description.report_data_source %}
  <ei:reportDataSource>
    {% if report_description.report_data_source.emix_interfaces %}
        {% for emix_interface in target.emix_interface %}
            {% include 'parts/emixInterface.xml' %}
        {% endfor %}
    {% endif %}

    {% if report_description.report_data_source.group_id %}
        <ei:groupID>{{ report_description.report_data_source.group_id }}</ei:groupID>
    {% endif %}

    {% if report_description.report_data_source.group_name %}
        <ei:groupName>{{ report_description.report_data_source.group_name }}</ei:groupName>
    {% endif %}

    {% if report_description.report_data_source.resource_id %}
        <ei:resourceID>{{ report_description.report_data_source.resource_id }}</ei:resourceID>
    {% endif %}

    {% if report_description.report_data_source.ven_id %}
        <ei:venID>{{ report_description.report_data_source.ven_id }}</ei:venID>
    {% endif %}

    {% if report_description.report_data_source.party_id %}
        <ei:partyID>{{ report_description.report_data_source.party_id }}</ei:partyID>
    {% endif %}
  </ei:reportDataSource>
  {% endif %}
  <ei:reportType>{{ report_description.report_type }}</ei:reportType>
  {% include 'parts/reportDescriptionEmix.xml' %}
  <ei:readingType>{{ report_description.reading_type }}</ei:readingType>
  {% if report_description.market_context %}
  <emix:marketContext>{{ report_description.market_context }}</emix:marketContext>
  {% endif %}
  {% if report_description.sampling_rate %}
  <oadr:oadrSamplingRate>
    <oadr:oadrMinPeriod>{{ report_description.sampling_rate.min_period|timedeltaformat }}</oadr:oadrMinPeriod>
    <oadr:oadrMaxPeriod>{{ report_description.sampling_rate.max_period|timedeltaformat }}</oadr:oadrMaxPeriod>
    <oadr:oadrOnChange>{{ report_description.sampling_rate.on_change|booleanformat }}</oadr:oadrOnChange>
  </oadr:oadrSamplingRate>
  {% endif %}
</oadr:oadrReportDescription>
".

(** templates/parts/oadrReportRequest.xml:1-32 *)
Definition t_part_oadrReportRequest : string := "<oadr:oadrReportRequest>
  <ei:reportRequestID>{{ report_request.report_request_id }}</ei:reportRequestID>
  <ei:reportSpecifier xmlns:xcal=""urn:ietf:params:xml:ns:icalendar-2.0"">
    <ei:reportSpecifierID>{{ report_request.report_specifier.report_specifier_id }}</ei:reportSpecifierID>
    <xcal:granularity>
      <xcal:duration>{{ report_request.report_specifier.granularity|timedeltaformat }}</xcal:duration>
    </xcal:granularity>
    {% if report_request.report_specifier.report_back_duration is defined and report_request.report_specifier.report_back_duration is not none %}
    <ei:reportBackDuration>
      <xcal:duration>{{ report_request.report_specifier.report_back_duration|timedeltaformat }}</xcal:duration>
    </ei:reportBackDuration>
    {% endif %}
    {% if report_request.report_specifier.report_interval is defined and report_request.report_specifier.report_interval is not none %}
    <ei:reportInterval>
      <xcal:properties>
        <xcal:dtstart>
          <xcal:date-time>{{ report_request.report_specifier.report_interval.dtstart|datetimeformat }}</xcal:date-time>
        </xcal:dtstart>
        <xcal:duration>
          <xcal:duration>{{ report_request.report_specifier.report_interval.duration|timedeltaformat }}</xcal:duration>
        </xcal:duration>
      </xcal:properties>
    </ei:reportInterval>
    {% endif %}
    {% for specifier_payload in report_request.report_specifier.specifier_payloads %}
    <ei:specifierPayload>
      <ei:rID>{{ specifier_payload.r_id }}</ei:rID>
      <ei:readingType>{{ specifier_payload.reading_type }}</ei:readingType>
    </ei:specifierPayload>
    {% endfor %}
  </ei:reportSpecifier>
</oadr:oadrReportRequest>".

(** templates/parts/reportDescriptionEmix.xml:1-16 *)
Definition t_part_reportDescriptionEmix : string := "  {% if report_description.measurement is defined and report_description.measurement is not none %}
  <{{ report_description.measurement.ns }}:{{ report_description.measurement.name }} xmlns:scale=""http://docs.oasis-open.org/ns/emix/2011/06/siscale"" xmlns:power=""http://docs.oasis-open.org/ns/emix/2011/06/power"" >
    <{{ report_description.measurement.ns }}:itemDescription>{{ report_description.measurement.description }}</{{ report_description.measurement.ns }}:itemDescription>
    <{{ report_description.measurement.ns }}:itemUnits>{{ report_description.measurement.unit }}</{{ report_description.measurement.ns }}:itemUnits>
    {% if report_description.measurement.pulse_factor %}<oadr:pulseFactor>{{ report_description.measurement.pulse_factor }}</oadr:pulseFactor>{% else %}
    <scale:siScaleCode>{{ report_description.measurement.scale }}</scale:siScaleCode>
    {% endif %}
    {% if report_description.measurement.power_attributes %}
    <power:powerAttributes>
      <power:hertz>{{ report_description.measurement.power_attributes.hertz }}</power:hertz>
      <power:voltage>{{ report_description.measurement.power_attributes.voltage }}</power:voltage>
      <power:ac>{{ report_description.measurement.power_attributes.ac|booleanformat }}</power:ac>
    </power:powerAttributes>
    {% endif %}
  </{{ report_description.measurement.ns }}:{{ report_description.measurement.name }}>
  {% endif %}".

(** messaging.py:219, PackageLoader: the template of a name, if there is one. *)
Definition source (name : string) : option string :=
  match name with
  | "oadrCancelOpt.xml" => Some t_oadrCancelOpt
  | "oadrCancelPartyRegistration.xml" => Some t_oadrCancelPartyRegistration
  | "oadrCancelReport.xml" => Some t_oadrCancelReport
  | "oadrCanceledOpt.xml" => Some t_oadrCanceledOpt
  | "oadrCanceledPartyRegistration.xml" => Some t_oadrCanceledPartyRegistration
  | "oadrCanceledReport.xml" => Some t_oadrCanceledReport
  | "oadrCreateOpt.xml" => Some t_oadrCreateOpt
  | "oadrCreatePartyRegistration.xml" => Some t_oadrCreatePartyRegistration
  | "oadrCreateReport.xml" => Some t_oadrCreateReport
  | "oadrCreatedEvent.xml" => Some t_oadrCreatedEvent
  | "oadrCreatedOpt.xml" => Some t_oadrCreatedOpt
  | "oadrCreatedPartyRegistration.xml" => Some t_oadrCreatedPartyRegistration
  | "oadrCreatedReport.xml" => Some t_oadrCreatedReport
  | "oadrDistributeEvent.xml" => Some t_oadrDistributeEvent
  | "oadrPayload.xml" => Some t_oadrPayload
  | "oadrPoll.xml" => Some t_oadrPoll
  | "oadrQueryRegistration.xml" => Some t_oadrQueryRegistration
  | "oadrRegisterReport.xml" => Some t_oadrRegisterReport
  | "oadrRegisteredReport.xml" => Some t_oadrRegisteredReport
  | "oadrRequestEvent.xml" => Some t_oadrRequestEvent
  | "oadrRequestReregistration.xml" => Some t_oadrRequestReregistration
  | "oadrResponse.xml" => Some t_oadrResponse
  | "oadrUpdateReport.xml" => Some t_oadrUpdateReport
  | "oadrUpdatedReport.xml" => Some t_oadrUpdatedReport
  | "parts/eiActivePeriod.xml" => Some t_part_eiActivePeriod
  | "parts/eiEvent.xml" => Some t_part_eiEvent
  | "parts/eiEventDescriptor.xml" => Some t_part_eiEventDescriptor
  | "parts/eiEventSignal.xml" => Some t_part_eiEventSignal
  | "parts/eiEventTarget.xml" => Some t_part_eiEventTarget
  | "parts/eiTarget.xml" => Some t_part_eiTarget
  | "parts/emixInterface.xml" => Some t_part_emixInterface
  | "parts/eventSignalEmix.xml" => Some t_part_eventSignalEmix
  | "parts/oadrReportDescription.xml" => Some t_part_oadrReportDescription
  | "parts/oadrReportRequest.xml" => Some t_part_oadrReportRequest
  | "parts/reportDescriptionEmix.xml" => Some t_part_reportDescriptionEmix
  | _ => None
  end.
