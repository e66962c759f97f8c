-Q theories Verif
theories/Base/Dict.v
theories/Base/ListExtra.v
theories/Base/PyStr.v
theories/Base/PyVal.v
theories/Base/Result.v
theories/Model/Async.v
theories/Model/Certificates.v
theories/Model/ClientEvents.v
theories/Model/ClientOpts.v
theories/Model/ClientReports.v
theories/Model/ClientRequest.v
theories/Model/Constructors.v
theories/Model/Cron.v
theories/Model/DateTime.v
theories/Model/Duration.v
theories/Model/Enums.v
theories/Model/EventService.v
theories/Model/EventTime.v
theories/Model/Exchange.v
theories/Model/Handlers.v
theories/Model/Handling.v
theories/Model/Jinja.v
theories/Model/Measurements.v
theories/Model/Members.v
theories/Model/Normalize.v
theories/Model/Objects.v
theories/Model/Payloads.v
theories/Model/Polled.v
theories/Model/Preflight.v
theories/Model/PreflightDict.v
theories/Model/Registration.v
theories/Model/Replay.v
theories/Model/Replied.v
theories/Model/ReportService.v
theories/Model/ReportTasks.v
theories/Model/Reports.v
theories/Model/Routes.v
theories/Model/Schema.v
theories/Model/SchemaTypes.v
theories/Model/Server.v
theories/Model/Servers.v
theories/Model/Signature.v
theories/Model/Templates.v
theories/Model/Text.v
theories/Model/VtnService.v
theories/Model/Xml.v
theories/Model/XmlOpt.v
theories/Model/XmlParty.v
theories/Model/XmlText.v
theories/Proofs/AnsweredProofs.v
theories/Proofs/AnyProofs.v
theories/Proofs/ArrivalProofs.v
theories/Proofs/AsyncProofs.v
theories/Proofs/BlockProofs.v
theories/Proofs/CalmProofs.v
theories/Proofs/CancelReportProofs.v
theories/Proofs/CertificateProofs.v
theories/Proofs/ChoiceProofs.v
theories/Proofs/ClientEventProofs.v
theories/Proofs/ClientOptProofs.v
theories/Proofs/ClientReportProofs.v
theories/Proofs/ClientRequestProofs.v
theories/Proofs/CronProofs.v
theories/Proofs/DamageProofs.v
theories/Proofs/DateTimeProofs.v
theories/Proofs/DeliveredProofs.v
theories/Proofs/DeliveryProofs.v
theories/Proofs/DurationProofs.v
theories/Proofs/EventLoopProofs.v
theories/Proofs/EventMemberProofs.v
theories/Proofs/EventTimeProofs.v
theories/Proofs/ExchangeProofs.v
theories/Proofs/MeantProofs.v
theories/Proofs/MeasurementProofs.v
theories/Proofs/MemberProofs.v
theories/Proofs/MembersProofs.v
theories/Proofs/MessageProofs.v
theories/Proofs/NormalizeProofs.v
theories/Proofs/OfferProofs.v
theories/Proofs/OptMessageProofs.v
theories/Proofs/PartyArrival.v
theories/Proofs/PartyProofs.v
theories/Proofs/PayloadProofs.v
theories/Proofs/PeriodProofs.v
theories/Proofs/PlacesProofs.v
theories/Proofs/PolledProofs.v
theories/Proofs/PreflightDictProofs.v
theories/Proofs/PreflightProofs.v
theories/Proofs/QualifyProofs.v
theories/Proofs/QueueAnswers.v
theories/Proofs/QueueHistory.v
theories/Proofs/QueueLaws.v
theories/Proofs/QueueProofs.v
theories/Proofs/ReactionProofs.v
theories/Proofs/ReadableProofs.v
theories/Proofs/RegexProofs.v
theories/Proofs/RegistrationProofs.v
theories/Proofs/ReplayProofs.v
theories/Proofs/RepliedProofs.v
theories/Proofs/ReportProofs.v
theories/Proofs/ReportServiceProofs.v
theories/Proofs/ReportTasksProofs.v
theories/Proofs/RouteProofs.v
theories/Proofs/SamplingProofs.v
theories/Proofs/SchemaMessageProofs.v
theories/Proofs/SchemaSentProofs.v
theories/Proofs/SchemaTreeProofs.v
theories/Proofs/SchemaValueProofs.v
theories/Proofs/ServerProofs.v
theories/Proofs/SettledProofs.v
theories/Proofs/SignatureProofs.v
theories/Proofs/TemplateProofs.v
theories/Proofs/TextProofs.v
theories/Proofs/UnmeasuredProofs.v
theories/Proofs/UnnamedProofs.v
theories/Proofs/UpdatedProofs.v
theories/Proofs/VtnServiceProofs.v
theories/Proofs/WrittenProofs.v
theories/Proofs/XmlTextProofs.v
theories/Properties/P_AnyPayload.v
theories/Properties/P_Async.v
theories/Properties/P_Certificates.v
theories/Properties/P_Choice.v
theories/Properties/P_ClientEvents.v
theories/Properties/P_ClientReports.v
theories/Properties/P_Conversations.v
theories/Properties/P_Cron.v
theories/Properties/P_Damage.v
theories/Properties/P_DateTime.v
theories/Properties/P_Delivery.v
theories/Properties/P_Duration.v
theories/Properties/P_EventLoop.v
theories/Properties/P_EventTime.v
theories/Properties/P_Exchange.v
theories/Properties/P_Handlers.v
theories/Properties/P_Measurements.v
theories/Properties/P_Members.v
theories/Properties/P_Messages.v
theories/Properties/P_Namespaces.v
theories/Properties/P_Objects.v
theories/Properties/P_Opts.v
theories/Properties/P_Party.v
theories/Properties/P_Places.v
theories/Properties/P_Polled.v
theories/Properties/P_Preflight.v
theories/Properties/P_Queue.v
theories/Properties/P_Readable.v
theories/Properties/P_Refusals.v
theories/Properties/P_Registration.v
theories/Properties/P_Replay.v
theories/Properties/P_Replied.v
theories/Properties/P_ReportLoop.v
theories/Properties/P_ReportService.v
theories/Properties/P_ReportTasks.v
theories/Properties/P_Reports.v
theories/Properties/P_Routes.v
theories/Properties/P_Sampling.v
theories/Properties/P_Schema.v
theories/Properties/P_Server.v
theories/Properties/P_Servers.v
theories/Properties/P_Settled.v
theories/Properties/P_Signature.v
theories/Properties/P_Templates.v
theories/Properties/P_Text.v
theories/Properties/P_Unnamed.v
theories/Properties/P_Updated.v
theories/Properties/P_VtnService.v
theories/Properties/P_Written.v
theories/Properties/P_XmlText.v
theories/Spec/AcceptedSpec.v
theories/Spec/AddSpec.v
theories/Spec/Calendar.v
theories/Spec/CertificateSpec.v
theories/Spec/CheckedSpec.v
theories/Spec/ChoiceSpec.v
theories/Spec/ClientEventSpec.v
theories/Spec/ClientReportSpec.v
theories/Spec/CronSpec.v
theories/Spec/DeliveredSpec.v
theories/Spec/DeliverySpec.v
theories/Spec/EventLoopSpec.v
theories/Spec/EventSpec.v
theories/Spec/ExchangeSpec.v
theories/Spec/HandlerSpec.v
theories/Spec/Instants.v
theories/Spec/MeasurementSpec.v
theories/Spec/MessageSpec.v
theories/Spec/OptSpec.v
theories/Spec/PartySpec.v
theories/Spec/PathSpec.v
theories/Spec/PayloadSpec.v
theories/Spec/PayloadsAnySpec.v
theories/Spec/PlacesSpec.v
theories/Spec/PolledSpec.v
theories/Spec/PreflightSpec.v
theories/Spec/QueueSpec.v
theories/Spec/ReadableSpec.v
theories/Spec/RegistrationSpec.v
theories/Spec/ReplaySpec.v
theories/Spec/RepliedSpec.v
theories/Spec/ReportLoopSpec.v
theories/Spec/ReportServiceSpec.v
theories/Spec/ReportSpec.v
theories/Spec/ReportTasksSpec.v
theories/Spec/Rfc5545.v
theories/Spec/RouteSpec.v
theories/Spec/SamplingSpec.v
theories/Spec/ServersSpec.v
theories/Spec/SettledSpec.v
theories/Spec/SignatureSpec.v
theories/Spec/TextSpec.v
theories/Spec/Timestamp.v
theories/Spec/UnnamedSpec.v
theories/Spec/UpdatedSpec.v
theories/Spec/VtnServiceSpec.v
theories/Spec/WrittenSpec.v
theories/Spec/XmlTextSpec.v
