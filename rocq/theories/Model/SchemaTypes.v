(** The schema files as types of Model/Schema.v: all types that a message
    uses, transcribed by a script.  Extensions are unfolded; an element that
    heads a substitution group stands for the elements that can replace it, and
    abstract elements are left out. *)
From Coq Require Import ZArith String List.
From Verif.Base Require Import Result.
From Verif.Model Require Import Xml XmlText Schema.
Import ListNotations.
Local Open Scope string_scope.
Local Open Scope Z_scope.

(** minOccurs and maxOccurs. *)
Definition one_of (alts : list (string * ty)) : particle := (alts, 1%nat, Some 1%nat).
Definition opt_of (alts : list (string * ty)) : particle := (alts, 0%nat, Some 1%nat).
Definition many_of (alts : list (string * ty)) : particle := (alts, 0%nat, None).
Definition some_of (alts : list (string * ty)) : particle := (alts, 1%nat, None).
Definition one (n : string) (t : ty) : particle := one_of [(n, t)].
Definition opt (n : string) (t : ty) : particle := opt_of [(n, t)].
Definition many (n : string) (t : ty) : particle := many_of [(n, t)].
Definition some (n : string) (t : ty) : particle := some_of [(n, t)].

(** The namespaces (targetNamespace of the schema files). *)
(** schema/oadr_atom.xsd:2 *)
Definition atom_uri : string := "http://www.w3.org/2005/Atom".
Definition in_atom (n : string) : string := clark atom_uri n.
(** schema/oadr_xmldsig.xsd:2 *)
Definition ds_uri : string := "http://www.w3.org/2000/09/xmldsig#".
Definition in_ds (n : string) : string := clark ds_uri n.
(** schema/oadr_ei_20b.xsd:3 *)
Definition ei_uri : string := "http://docs.oasis-open.org/ns/energyinterop/201110".
Definition in_ei (n : string) : string := clark ei_uri n.
(** schema/oadr_emix_20b.xsd:3 *)
Definition emix_uri : string := "http://docs.oasis-open.org/ns/emix/2011/06".
Definition in_emix (n : string) : string := clark emix_uri n.
(** schema/oadr_gml_20b.xsd:3 *)
Definition gml_uri : string := "http://www.opengis.net/gml/3.2".
Definition in_gml (n : string) : string := clark gml_uri n.
(** schema/oadr_20b.xsd:3 *)
Definition oadr_uri : string := "http://openadr.org/oadr-2.0b/2012/07".
Definition in_oadr (n : string) : string := clark oadr_uri n.
(** schema/oadr_power_20b.xsd:3 *)
Definition power_uri : string := "http://docs.oasis-open.org/ns/emix/2011/06/power".
Definition in_power (n : string) : string := clark power_uri n.
(** schema/oadr_pyld_20b.xsd:3 *)
Definition pyld_uri : string := "http://docs.oasis-open.org/ns/energyinterop/201110/payloads".
Definition in_pyld (n : string) : string := clark pyld_uri n.
(** schema/oadr_siscale_20b.xsd:20 *)
Definition scale_uri : string := "http://docs.oasis-open.org/ns/emix/2011/06/siscale".
Definition in_scale (n : string) : string := clark scale_uri n.
(** schema/oadr_strm_20b.xsd:3 *)
Definition strm_uri : string := "urn:ietf:params:xml:ns:icalendar-2.0:stream".
Definition in_strm (n : string) : string := clark strm_uri n.
(** schema/oadr_xcal_20b.xsd:3 *)
Definition xcal_uri : string := "urn:ietf:params:xml:ns:icalendar-2.0".
Definition in_xcal (n : string) : string := clark xcal_uri n.

(** schema/oadr_ei_20b.xsd:1006-1011 *)
Definition ei_schemaVersionEnumeratedType : simple := OneOf Token ["2.0a"; "2.0b"].
(** schema/oadr_ei_20b.xsd:54-61 *)
Definition ei_EiExtensionTokenType : simple := Matching Token extension_pattern.
(** schema/oadr_ei_20b.xsd:1003-1005 *)
Definition ei_schemaVersionType : simple := Union [ei_schemaVersionEnumeratedType; ei_EiExtensionTokenType].
(** schema/oadr_ei_20b.xsd:161-175 *)
Definition ei_ResponseCodeType : simple := Matching Text code_pattern.
(** schema/oadr_ei_20b.xsd:200-206 *)
Definition ei_EiResponseType : ty := Complex [] [
    one (in_ei "responseCode") (Simple [] ei_ResponseCodeType);
    opt (in_ei "responseDescription") (Simple [] Text);
    one (in_pyld "requestID") (Simple [] Text)].
(** schema/oadr_xcal_20b.xsd:9-13 *)
Definition xcal_DateTimeType : simple := Matching DateTime time_pattern.
(** schema/oadr_emix_20b.xsd:12-14 *)
Definition emix_MarketContextType : simple := AnyURI.
(** schema/oadr_ei_20b.xsd:357-361 *)
Definition ei_eventDescriptorType_eiMarketContext : ty := Complex [] [
    one (in_emix "marketContext") (Simple [] emix_MarketContextType)].
(** schema/oadr_ei_20b.xsd:12-45 *)
Definition ei_EventStatusEnumeratedType : simple := OneOf Token ["none"; "far"; "near"; "active"; "completed"; "cancelled"].
(** schema/oadr_ei_20b.xsd:337-380 *)
Definition ei_eventDescriptorType : ty := Complex [] [
    one (in_ei "eventID") (Simple [] Text);
    one (in_ei "modificationNumber") (Simple [] UnsignedInt);
    opt (in_ei "modificationDateTime") (Simple [] xcal_DateTimeType);
    opt (in_ei "modificationReason") (Simple [] Text);
    opt (in_ei "priority") (Simple [] UnsignedInt);
    one (in_ei "eiMarketContext") ei_eventDescriptorType_eiMarketContext;
    one (in_ei "createdDateTime") (Simple [] xcal_DateTimeType);
    one (in_ei "eventStatus") (Simple [] ei_EventStatusEnumeratedType);
    opt (in_ei "testEvent") (Simple [] Text);
    opt (in_ei "vtnComment") (Simple [] Text)].
(** schema/oadr_xcal_20b.xsd:49-53 *)
Definition xcal_dtstart_element : ty := Complex [] [
    one (in_xcal "date-time") (Simple [] xcal_DateTimeType)].
(** schema/oadr_xcal_20b.xsd:27-31 *)
Definition xcal_DurationValueType : simple := Matching Text duration_pattern.
(** schema/oadr_xcal_20b.xsd:21-25 *)
Definition xcal_DurationPropType : ty := Complex [] [
    one (in_xcal "duration") (Simple [] xcal_DurationValueType)].
(** schema/oadr_xcal_20b.xsd:68-72 *)
Definition xcal_properties_element_tolerance_tolerate : ty := Complex [] [
    opt (in_xcal "startafter") (Simple [] xcal_DurationValueType)].
(** schema/oadr_xcal_20b.xsd:65-75 *)
Definition xcal_properties_element_tolerance : ty := Complex [] [
    one (in_xcal "tolerate") xcal_properties_element_tolerance_tolerate].
(** schema/oadr_xcal_20b.xsd:57-81 *)
Definition xcal_properties_element : ty := Complex [] [
    one (in_xcal "dtstart") xcal_dtstart_element;
    one (in_xcal "duration") xcal_DurationPropType;
    opt (in_xcal "tolerance") xcal_properties_element_tolerance;
    opt (in_ei "x-eiNotification") xcal_DurationPropType;
    opt (in_ei "x-eiRampUp") xcal_DurationPropType;
    opt (in_ei "x-eiRecovery") xcal_DurationPropType].
(** schema/oadr_ei_20b.xsd:245-250 *)
Definition ei_eiActivePeriodType : ty := Complex [] [
    one (in_xcal "properties") xcal_properties_element;
    one (in_xcal "components") Anything].
(** schema/oadr_xcal_20b.xsd:37-41 *)
Definition xcal_uid_element : ty := Complex [] [
    one (in_xcal "text") (Simple [] Text)].
(** schema/oadr_ei_20b.xsd:141-152 *)
Definition ei_PayloadFloatType : ty := Complex [] [
    one (in_ei "value") (Simple [] Float)].
(** schema/oadr_20b.xsd:879-886 *)
Definition oadr_oadrLoadControlStateTypeType : ty := Complex [] [
    opt (in_oadr "oadrMin") (Simple [] Float);
    opt (in_oadr "oadrMax") (Simple [] Float);
    one (in_oadr "oadrCurrent") (Simple [] Float);
    opt (in_oadr "oadrNormal") (Simple [] Float)].
(** schema/oadr_20b.xsd:871-878 *)
Definition oadr_oadrLoadControlStateType : ty := Complex [] [
    opt (in_oadr "oadrCapacity") oadr_oadrLoadControlStateTypeType;
    opt (in_oadr "oadrLevelOffset") oadr_oadrLoadControlStateTypeType;
    opt (in_oadr "oadrPercentOffset") oadr_oadrLoadControlStateTypeType;
    opt (in_oadr "oadrSetPoint") oadr_oadrLoadControlStateTypeType].
(** schema/oadr_20b.xsd:848-869 *)
Definition oadr_oadrPayloadResourceStatusType : ty := Complex [] [
    one (in_oadr "oadrOnline") (Simple [] Boolean);
    one (in_oadr "oadrManualOverride") (Simple [] Boolean);
    opt (in_oadr "oadrLoadControlState") oadr_oadrLoadControlStateType].
(** schema/oadr_ei_20b.xsd:386-394 *)
Definition ei_signalPayloadType : ty := Complex [] [
    one_of [(in_ei "payloadFloat", ei_PayloadFloatType); (in_oadr "oadrPayloadResourceStatus", oadr_oadrPayloadResourceStatusType)]].
(** schema/oadr_20b.xsd:897-905 *)
Definition oadr_oadrGBStreamPayloadBase : ty := Complex [] [
    one (in_atom "feed") Foreign].
(** schema/oadr_ei_20b.xsd:893-898 *)
Definition ei_ConfidenceType : simple := AtMost (AtLeast (UnsignedInt) 0) 100.
(** schema/oadr_ei_20b.xsd:900-905 *)
Definition ei_AccuracyType : simple := Float.
(** schema/oadr_20b.xsd:941-965 *)
Definition oadr_oadrDataQualityType : simple := OneOf Token [
    "No Quality - No Value"; "No New Value - Previous Value Used"; "Quality Bad - Non Specific";
    "Quality Bad - Configuration Error"; "Quality Bad - Not Connected"; "Quality Bad - Device Failure";
    "Quality Bad - Sensor Failure"; "Quality Bad - Last Known Value"; "Quality Bad - Comm Failure"; "Quality Bad - Out of Service";
    "Quality Uncertain - Non Specific"; "Quality Uncertain - Last Usable Value"; "Quality Uncertain - Sensor Not Accurate";
    "Quality Uncertain - EU Units Exceeded"; "Quality Uncertain - Sub Normal"; "Quality Good - Non Specific";
    "Quality Good - Local Override"; "Quality Limit - Field/Not"; "Quality Limit - Field/Low"; "Quality Limit - Field/High";
    "Quality Limit - Field/Constant"].
(** schema/oadr_20b.xsd:938-940 *)
Definition oadr_oadrDataQualityTypeType : simple := Union [oadr_oadrDataQualityType; ei_EiExtensionTokenType].
(** schema/oadr_20b.xsd:920-935 *)
Definition oadr_oadrReportPayloadType : ty := Complex [] [
    one (in_ei "rID") (Simple [] Text);
    opt (in_ei "confidence") (Simple [] ei_ConfidenceType);
    opt (in_ei "accuracy") (Simple [] ei_AccuracyType);
    one_of [(in_ei "payloadFloat", ei_PayloadFloatType); (in_oadr "oadrPayloadResourceStatus", oadr_oadrPayloadResourceStatusType)];
    opt (in_oadr "oadrDataQuality") (Simple [] oadr_oadrDataQualityTypeType)].
(** schema/oadr_ei_20b.xsd:110-117 *)
Definition ei_IntervalType : ty := Complex [] [
    opt (in_xcal "dtstart") xcal_dtstart_element;
    opt (in_xcal "duration") xcal_DurationPropType;
    opt (in_xcal "uid") xcal_uid_element;
    some_of [(in_ei "signalPayload", ei_signalPayloadType); (in_oadr "oadrGBPayload", oadr_oadrGBStreamPayloadBase); (in_oadr "oadrReportPayload", oadr_oadrReportPayloadType)]].
(** schema/oadr_strm_20b.xsd:12-16 *)
Definition strm_intervals_element : ty := Complex [] [
    some (in_ei "interval") ei_IntervalType].
(** schema/oadr_power_20b.xsd:76-81 *)
Definition power_NodeType : simple := Text.
(** schema/oadr_power_20b.xsd:37-44 *)
Definition power_AggregatedPnodeType : ty := Complex [] [
    one (in_power "node") (Simple [] power_NodeType)].
(** schema/oadr_power_20b.xsd:85-90 *)
Definition power_MridType : simple := Text.
(** schema/oadr_power_20b.xsd:8-15 *)
Definition power_EndDeviceAssetType : ty := Complex [] [
    one (in_power "mrid") (Simple [] power_MridType)].
(** schema/oadr_power_20b.xsd:18-25 *)
Definition power_MeterAssetType : ty := Complex [] [
    one (in_power "mrid") (Simple [] power_MridType)].
(** schema/oadr_power_20b.xsd:28-35 *)
Definition power_PnodeType : ty := Complex [] [
    one (in_power "node") (Simple [] power_NodeType)].
(** schema/oadr_gml_20b.xsd:39-41 *)
Definition gml_doubleList : simple := ListOf Double.
(** schema/oadr_gml_20b.xsd:17-21 *)
Definition gml_FeatureCollection_element_location_Polygon_exterior_LinearRing : ty := Complex [] [
    one (in_gml "posList") (Simple [] gml_doubleList)].
(** schema/oadr_gml_20b.xsd:14-24 *)
Definition gml_FeatureCollection_element_location_Polygon_exterior : ty := Complex [] [
    one (in_gml "LinearRing") gml_FeatureCollection_element_location_Polygon_exterior_LinearRing].
(** schema/oadr_gml_20b.xsd:11-28 *)
Definition gml_FeatureCollection_element_location_Polygon : ty := Complex [(in_gml "id", Id)] [
    one (in_gml "exterior") gml_FeatureCollection_element_location_Polygon_exterior].
(** schema/oadr_gml_20b.xsd:8-31 *)
Definition gml_FeatureCollection_element_location : ty := Complex [] [
    one (in_gml "Polygon") gml_FeatureCollection_element_location_Polygon].
(** schema/oadr_gml_20b.xsd:5-35 *)
Definition gml_FeatureCollection_element : ty := Complex [(in_gml "id", Id)] [
    one (in_gml "location") gml_FeatureCollection_element_location].
(** schema/oadr_emix_20b.xsd:18-25 *)
Definition emix_ServiceAreaType : ty := Complex [] [
    one (in_gml "FeatureCollection") gml_FeatureCollection_element].
(** schema/oadr_power_20b.xsd:55-62 *)
Definition power_ServiceDeliveryPointType : ty := Complex [] [
    one (in_power "node") (Simple [] power_NodeType)].
(** schema/oadr_power_20b.xsd:46-53 *)
Definition power_ServiceLocationType : ty := Complex [] [
    one (in_gml "FeatureCollection") gml_FeatureCollection_element].
(** schema/oadr_power_20b.xsd:65-73 *)
Definition power_TransportInterfaceType : ty := Complex [] [
    one (in_power "pointOfReceipt") (Simple [] power_NodeType);
    one (in_power "pointOfDelivery") (Simple [] power_NodeType)].
(** schema/oadr_ei_20b.xsd:407-423 *)
Definition ei_EiTargetType : ty := Complex [] [
    many (in_power "aggregatedPnode") power_AggregatedPnodeType;
    many (in_power "endDeviceAsset") power_EndDeviceAssetType;
    many (in_power "meterAsset") power_MeterAssetType;
    many (in_power "pnode") power_PnodeType;
    many (in_emix "serviceArea") emix_ServiceAreaType;
    many (in_power "serviceDeliveryPoint") power_ServiceDeliveryPointType;
    many (in_power "serviceLocation") power_ServiceLocationType;
    many (in_power "transportInterface") power_TransportInterfaceType;
    many (in_ei "groupID") (Simple [] Text);
    many (in_ei "groupName") (Simple [] Text);
    many (in_ei "resourceID") (Simple [] Text);
    many (in_ei "venID") (Simple [] Text);
    many (in_ei "partyID") (Simple [] Text)].
(** schema/oadr_ei_20b.xsd:461-519 *)
Definition ei_SignalNameEnumeratedType : simple := OneOf Token [
    "SIMPLE"; "simple"; "ELECTRICITY_PRICE"; "ENERGY_PRICE"; "DEMAND_CHARGE"; "BID_PRICE"; "BID_LOAD"; "BID_ENERGY"; "CHARGE_STATE";
    "LOAD_DISPATCH"; "LOAD_CONTROL"].
(** schema/oadr_ei_20b.xsd:454-459 *)
Definition ei_signalNameType : simple := Union [ei_SignalNameEnumeratedType; ei_EiExtensionTokenType].
(** schema/oadr_ei_20b.xsd:258-319 *)
Definition ei_SignalTypeEnumeratedType : simple := OneOf Token [
    "delta"; "level"; "multiplier"; "price"; "priceMultiplier"; "priceRelative"; "setpoint"; "x-loadControlCapacity";
    "x-loadControlLevelOffset"; "x-loadControlPercentOffset"; "x-loadControlSetpoint"].
(** schema/oadr_siscale_20b.xsd:32-105 *)
Definition scale_SiScaleCodeType : simple := OneOf Text [
    "p"; "n"; "micro"; "m"; "c"; "d"; "k"; "M"; "G"; "T"; "none"].
(** schema/oadr_power_20b.xsd:93-106 *)
Definition power_VoltageType : ty := Complex [] [
    one (in_power "itemDescription") (Fixed Text "Voltage");
    one (in_power "itemUnits") (Fixed Text "V");
    one (in_scale "siScaleCode") (Simple [] scale_SiScaleCodeType)].
(** schema/oadr_power_20b.xsd:109-122 *)
Definition power_EnergyApparentType : ty := Complex [] [
    one (in_power "itemDescription") (Fixed Text "ApparentEnergy");
    one (in_power "itemUnits") (Fixed Text "VAh");
    one (in_scale "siScaleCode") (Simple [] scale_SiScaleCodeType)].
(** schema/oadr_power_20b.xsd:124-137 *)
Definition power_EnergyReactiveType : ty := Complex [] [
    one (in_power "itemDescription") (Fixed Text "ReactiveEnergy");
    one (in_power "itemUnits") (Fixed Text "VARh");
    one (in_scale "siScaleCode") (Simple [] scale_SiScaleCodeType)].
(** schema/oadr_power_20b.xsd:139-152 *)
Definition power_EnergyRealType : ty := Complex [] [
    one (in_power "itemDescription") (Fixed Text "RealEnergy");
    one (in_power "itemUnits") (Fixed Text "Wh");
    one (in_scale "siScaleCode") (Simple [] scale_SiScaleCodeType)].
(** schema/oadr_power_20b.xsd:253-259 *)
Definition power_PowerAttributesType : ty := Complex [] [
    one (in_power "hertz") (Simple [] Decimal);
    one (in_power "voltage") (Simple [] Decimal);
    one (in_power "ac") (Simple [] Boolean)].
(** schema/oadr_power_20b.xsd:176-190 *)
Definition power_PowerApparentType : ty := Complex [] [
    one (in_power "itemDescription") (Fixed Text "ApparentPower");
    one (in_power "itemUnits") (Fixed Text "VA");
    one (in_scale "siScaleCode") (Simple [] scale_SiScaleCodeType);
    one (in_power "powerAttributes") power_PowerAttributesType].
(** schema/oadr_power_20b.xsd:193-207 *)
Definition power_PowerReactiveType : ty := Complex [] [
    one (in_power "itemDescription") (Fixed Text "ReactivePower");
    one (in_power "itemUnits") (Fixed Text "VAR");
    one (in_scale "siScaleCode") (Simple [] scale_SiScaleCodeType);
    one (in_power "powerAttributes") power_PowerAttributesType].
(** schema/oadr_power_20b.xsd:219-224 *)
Definition power_PowerRealType_itemUnits : simple := OneOf Token ["W"; "J/s"].
(** schema/oadr_power_20b.xsd:210-231 *)
Definition power_PowerRealType : ty := Complex [] [
    one (in_power "itemDescription") (Fixed Text "RealPower");
    one (in_power "itemUnits") (Simple [] power_PowerRealType_itemUnits);
    one (in_scale "siScaleCode") (Simple [] scale_SiScaleCodeType);
    one (in_power "powerAttributes") power_PowerAttributesType].
(** schema/oadr_20b.xsd:605-618 *)
Definition oadr_BaseUnitType : ty := Complex [] [
    one (in_oadr "itemDescription") (Simple [] Text);
    one (in_oadr "itemUnits") (Simple [] Text);
    one (in_scale "siScaleCode") (Simple [] scale_SiScaleCodeType)].
(** schema/oadr_20b.xsd:621-634 *)
Definition oadr_CurrentType : ty := Complex [] [
    one (in_oadr "itemDescription") (Fixed Text "Current");
    one (in_oadr "itemUnits") (Fixed Text "A");
    one (in_scale "siScaleCode") (Simple [] scale_SiScaleCodeType)].
(** schema/oadr_20b.xsd:658-664 *)
Definition oadr_currencyItemDescriptionType : simple := OneOf Token ["currency"; "currencyPerKW"; "currencyPerKWh"].
(** schema/oadr_ISO_ISO3AlphaCurrencyCode_20100407.xsd:34-222 *)
Definition clm5ISO42173A_ISO3AlphaCurrencyCodeContentType : simple := OneOf Token [
    "AED"; "AFN"; "ALL"; "AMD"; "ANG"; "AOA"; "ARS"; "AUD"; "AWG"; "AZN"; "BAM"; "BBD"; "BDT"; "BGN"; "BHD"; "BIF"; "BMD"; "BND";
    "BOB"; "BOV"; "BRL"; "BSD"; "BTN"; "BWP"; "BYR"; "BZD"; "CAD"; "CDF"; "CHE"; "CHF"; "CHW"; "CLF"; "CLP"; "CNY"; "COP"; "COU";
    "CRC"; "CUC"; "CUP"; "CVE"; "CZK"; "DJF"; "DKK"; "DOP"; "DZD"; "EEK"; "EGP"; "ERN"; "ETB"; "EUR"; "FJD"; "FKP"; "GBP"; "GEL";
    "GHS"; "GIP"; "GMD"; "GNF"; "GTQ"; "GWP"; "GYD"; "HKD"; "HNL"; "HRK"; "HTG"; "HUF"; "IDR"; "ILS"; "INR"; "IQD"; "IRR"; "ISK";
    "JMD"; "JOD"; "JPY"; "KES"; "KGS"; "KHR"; "KMF"; "KPW"; "KRW"; "KWD"; "KYD"; "KZT"; "LAK"; "LBP"; "LKR"; "LRD"; "LSL"; "LTL";
    "LVL"; "LYD"; "MAD"; "MAD"; "MDL"; "MGA"; "MKD"; "MMK"; "MNT"; "MOP"; "MRO"; "MUR"; "MVR"; "MWK"; "MXN"; "MXV"; "MYR"; "MZN";
    "NAD"; "NGN"; "NIO"; "NOK"; "NPR"; "NZD"; "OMR"; "PAB"; "PEN"; "PGK"; "PHP"; "PKR"; "PLN"; "PYG"; "QAR"; "RON"; "RSD"; "RUB";
    "RWF"; "SAR"; "SBD"; "SCR"; "SDG"; "SEK"; "SGD"; "SHP"; "SLL"; "SOS"; "SRD"; "STD"; "SVC"; "SYP"; "SZL"; "THB"; "TJS"; "TMT";
    "TND"; "TOP"; "TRY"; "TTD"; "TWD"; "TZS"; "UAH"; "UGX"; "USD"; "USN"; "USS"; "UYI"; "UYU"; "UZS"; "VEF"; "VND"; "VUV"; "WST";
    "XAF"; "XAG"; "XAU"; "XBA"; "XBB"; "XBC"; "XBD"; "XCD"; "XDR"; "XFU"; "XOF"; "XPD"; "XPF"; "XPF"; "XPF"; "XPT"; "XTS"; "XXX";
    "YER"; "ZAR"; "ZMK"; "ZWL"].
(** schema/oadr_20b.xsd:640-657 *)
Definition oadr_currencyType : ty := Complex [] [
    one (in_oadr "itemDescription") (Simple [] oadr_currencyItemDescriptionType);
    one (in_oadr "itemUnits") (Simple [] clm5ISO42173A_ISO3AlphaCurrencyCodeContentType);
    one (in_scale "siScaleCode") (Simple [] scale_SiScaleCodeType)].
(** schema/oadr_20b.xsd:667-680 *)
Definition oadr_FrequencyType : ty := Complex [] [
    one (in_oadr "itemDescription") (Fixed Text "Frequency");
    one (in_oadr "itemUnits") (Fixed Text "Hz");
    one (in_scale "siScaleCode") (Simple [] scale_SiScaleCodeType)].
(** schema/oadr_20b.xsd:683-696 *)
Definition oadr_ThermType : ty := Complex [] [
    one (in_oadr "itemDescription") (Fixed Text "Therm");
    one (in_oadr "itemUnits") (Fixed Text "thm");
    one (in_scale "siScaleCode") (Simple [] scale_SiScaleCodeType)].
(** schema/oadr_20b.xsd:717-722 *)
Definition oadr_temperatureUnitType : simple := OneOf Token ["celsius"; "fahrenheit"].
(** schema/oadr_20b.xsd:699-716 *)
Definition oadr_temperatureType : ty := Complex [] [
    one (in_oadr "itemDescription") (Fixed Text "temperature");
    one (in_oadr "itemUnits") (Simple [] oadr_temperatureUnitType);
    one (in_scale "siScaleCode") (Simple [] scale_SiScaleCodeType)].
(** schema/oadr_20b.xsd:730-747 *)
Definition oadr_pulseCountType : ty := Complex [] [
    one (in_oadr "itemDescription") (Fixed Text "pulse count");
    one (in_oadr "itemUnits") (Fixed Text "count");
    one (in_oadr "pulseFactor") (Simple [] Float)].
(** schema/oadr_20b.xsd:888-896 *)
Definition oadr_oadrGBItemBase : ty := Complex [] [
    one (in_atom "feed") Foreign].
(** schema/oadr_emix_20b.xsd:27 itemBase and the elements that can replace it *)
Definition measurement_elements : list (string * ty) := [
  (in_power "voltage", power_VoltageType); (in_power "energyApparent", power_EnergyApparentType); 
  (in_power "energyReactive", power_EnergyReactiveType); (in_power "energyReal", power_EnergyRealType); 
  (in_power "powerApparent", power_PowerApparentType); (in_power "powerReactive", power_PowerReactiveType); 
  (in_power "powerReal", power_PowerRealType); (in_oadr "customUnit", oadr_BaseUnitType); (in_oadr "current", oadr_CurrentType); 
  (in_oadr "currency", oadr_currencyType); (in_oadr "currencyPerKWh", oadr_currencyType); (in_oadr "currencyPerKW", oadr_currencyType); 
  (in_oadr "currencyPerThm", oadr_currencyType); (in_oadr "frequency", oadr_FrequencyType); (in_oadr "Therm", oadr_ThermType); 
  (in_oadr "temperature", oadr_temperatureType); (in_oadr "pulseCount", oadr_pulseCountType); 
  (in_oadr "oadrGBDataDescription", oadr_oadrGBItemBase)].
(** schema/oadr_ei_20b.xsd:124-128 *)
Definition ei_currentValueType : ty := Complex [] [
    one (in_ei "payloadFloat") ei_PayloadFloatType].
(** schema/oadr_ei_20b.xsd:426-452 *)
Definition ei_eiEventSignalType : ty := Complex [] [
    one (in_strm "intervals") strm_intervals_element;
    opt (in_ei "eiTarget") ei_EiTargetType;
    one (in_ei "signalName") (Simple [] ei_signalNameType);
    one (in_ei "signalType") (Simple [] ei_SignalTypeEnumeratedType);
    one (in_ei "signalID") (Simple [] Text);
    opt_of measurement_elements;
    opt (in_ei "currentValue") ei_currentValueType].
(** schema/oadr_ei_20b.xsd:546-568 *)
Definition ei_eiEventBaselineType : ty := Complex [] [
    one (in_xcal "dtstart") xcal_dtstart_element;
    one (in_xcal "duration") xcal_DurationPropType;
    one (in_strm "intervals") strm_intervals_element;
    one (in_ei "baselineID") (Simple [] Text);
    many (in_ei "resourceID") (Simple [] Text);
    one (in_ei "baselineName") (Simple [] Text);
    opt_of measurement_elements].
(** schema/oadr_ei_20b.xsd:526-539 *)
Definition ei_eiEventSignalsType : ty := Complex [] [
    some (in_ei "eiEventSignal") ei_eiEventSignalType;
    opt (in_ei "eiEventBaseline") ei_eiEventBaselineType].
(** schema/oadr_ei_20b.xsd:231-238 *)
Definition ei_eiEventType : ty := Complex [] [
    one (in_ei "eventDescriptor") ei_eventDescriptorType;
    one (in_ei "eiActivePeriod") ei_eiActivePeriodType;
    one (in_ei "eiEventSignals") ei_eiEventSignalsType;
    one (in_ei "eiTarget") ei_EiTargetType].
(** schema/oadr_20b.xsd:578-594 *)
Definition oadr_ResponseRequiredType : simple := OneOf Text ["always"; "never"].
(** schema/oadr_20b.xsd:73-78 *)
Definition oadr_oadrDistributeEventType_oadrEvent : ty := Complex [] [
    one (in_ei "eiEvent") ei_eiEventType;
    one (in_oadr "oadrResponseRequired") (Simple [] oadr_ResponseRequiredType)].
(** schema/oadr_20b.xsd:64-82 *)
Definition oadr_oadrDistributeEventType : ty := Complex [(in_ei "schemaVersion", ei_schemaVersionType)] [
    opt (in_ei "eiResponse") ei_EiResponseType;
    one (in_pyld "requestID") (Simple [] Text);
    one (in_ei "vtnID") (Simple [] Text);
    many (in_oadr "oadrEvent") oadr_oadrDistributeEventType_oadrEvent].
(** schema/oadr_ei_20b.xsd:81-89 *)
Definition ei_QualifiedEventIDType : ty := Complex [] [
    one (in_ei "eventID") (Simple [] Text);
    one (in_ei "modificationNumber") (Simple [] UnsignedInt)].
(** schema/oadr_ei_20b.xsd:188-193 *)
Definition ei_OptTypeType : simple := OneOf Token ["optIn"; "optOut"].
(** schema/oadr_ei_20b.xsd:215-223 *)
Definition ei_eventResponses_element_eventResponse : ty := Complex [] [
    one (in_ei "responseCode") (Simple [] ei_ResponseCodeType);
    opt (in_ei "responseDescription") (Simple [] Text);
    one (in_pyld "requestID") (Simple [] Text);
    one (in_ei "qualifiedEventID") ei_QualifiedEventIDType;
    one (in_ei "optType") (Simple [] ei_OptTypeType)].
(** schema/oadr_ei_20b.xsd:212-226 *)
Definition ei_eventResponses_element : ty := Complex [] [
    many (in_ei "eventResponse") ei_eventResponses_element_eventResponse].
(** schema/oadr_pyld_20b.xsd:38-44 *)
Definition pyld_eiCreatedEvent_element : ty := Complex [] [
    one (in_ei "eiResponse") ei_EiResponseType;
    opt (in_ei "eventResponses") ei_eventResponses_element;
    one (in_ei "venID") (Simple [] Text)].
(** schema/oadr_20b.xsd:85-90 *)
Definition oadr_oadrCreatedEventType : ty := Complex [(in_ei "schemaVersion", ei_schemaVersionType)] [
    one (in_pyld "eiCreatedEvent") pyld_eiCreatedEvent_element].
(** schema/oadr_pyld_20b.xsd:21-31 *)
Definition pyld_eiRequestEvent_element : ty := Complex [] [
    one (in_pyld "requestID") (Simple [] Text);
    one (in_ei "venID") (Simple [] Text);
    opt (in_pyld "replyLimit") (Simple [] UnsignedInt)].
(** schema/oadr_20b.xsd:93-98 *)
Definition oadr_oadrRequestEventType : ty := Complex [(in_ei "schemaVersion", ei_schemaVersionType)] [
    one (in_pyld "eiRequestEvent") pyld_eiRequestEvent_element].
(** schema/oadr_20b.xsd:101-107 *)
Definition oadr_oadrResponseType : ty := Complex [(in_ei "schemaVersion", ei_schemaVersionType)] [
    one (in_ei "eiResponse") ei_EiResponseType;
    opt (in_ei "venID") (Simple [] Text)].
(** schema/oadr_20b.xsd:115-122 *)
Definition oadr_oadrCancelOptType : ty := Complex [(in_ei "schemaVersion", ei_schemaVersionType)] [
    one (in_pyld "requestID") (Simple [] Text);
    one (in_ei "optID") (Simple [] Text);
    one (in_ei "venID") (Simple [] Text)].
(** schema/oadr_20b.xsd:129-135 *)
Definition oadr_oadrCanceledOptType : ty := Complex [(in_ei "schemaVersion", ei_schemaVersionType)] [
    one (in_ei "eiResponse") ei_EiResponseType;
    opt (in_ei "optID") (Simple [] Text)].
(** schema/oadr_ei_20b.xsd:599-613 *)
Definition ei_OptReasonEnumeratedType : simple := OneOf Token ["economic"; "emergency"; "mustRun"; "notParticipating"; "outageRunStatus"; "overrideStatus"; "participating"; "x-schedule"].
(** schema/oadr_ei_20b.xsd:592-597 *)
Definition ei_OptReasonType : simple := Union [ei_OptReasonEnumeratedType; ei_EiExtensionTokenType].
(** schema/oadr_xcal_20b.xsd:110-114 *)
Definition xcal_AvailableType : ty := Complex [] [
    one (in_xcal "properties") xcal_properties_element].
(** schema/oadr_xcal_20b.xsd:105-109 *)
Definition xcal_ArrayOfVavailabilityContainedComponents : ty := Complex [] [
    many (in_xcal "available") xcal_AvailableType].
(** schema/oadr_xcal_20b.xsd:95-99 *)
Definition xcal_VavailabilityType : ty := Complex [] [
    one (in_xcal "components") xcal_ArrayOfVavailabilityContainedComponents].
(** schema/oadr_20b.xsd:142-153 *)
Definition oadr_oadrCreateOptType : ty := Complex [(in_ei "schemaVersion", ei_schemaVersionType)] [
    one (in_ei "optID") (Simple [] Text);
    one (in_ei "optType") (Simple [] ei_OptTypeType);
    one (in_ei "optReason") (Simple [] ei_OptReasonType);
    opt (in_emix "marketContext") (Simple [] emix_MarketContextType);
    one (in_ei "venID") (Simple [] Text);
    opt (in_xcal "vavailability") xcal_VavailabilityType;
    one (in_ei "createdDateTime") (Simple [] xcal_DateTimeType);
    one (in_pyld "requestID") (Simple [] Text);
    opt (in_ei "qualifiedEventID") ei_QualifiedEventIDType;
    one (in_ei "eiTarget") ei_EiTargetType;
    opt (in_oadr "oadrDeviceClass") ei_EiTargetType].
(** schema/oadr_20b.xsd:160-166 *)
Definition oadr_oadrCreatedOptType : ty := Complex [(in_ei "schemaVersion", ei_schemaVersionType)] [
    one (in_ei "eiResponse") ei_EiResponseType;
    one (in_ei "optID") (Simple [] Text)].
(** schema/oadr_20b.xsd:174-182 *)
Definition oadr_oadrCancelReportType : ty := Complex [(in_ei "schemaVersion", ei_schemaVersionType)] [
    one (in_pyld "requestID") (Simple [] Text);
    some (in_ei "reportRequestID") (Simple [] Text);
    one (in_pyld "reportToFollow") (Simple [] Boolean);
    opt (in_ei "venID") (Simple [] Text)].
(** schema/oadr_20b.xsd:597-601 *)
Definition oadr_oadrPendingReportsType : ty := Complex [] [
    many (in_ei "reportRequestID") (Simple [] Text)].
(** schema/oadr_20b.xsd:185-192 *)
Definition oadr_oadrCanceledReportType : ty := Complex [(in_ei "schemaVersion", ei_schemaVersionType)] [
    one (in_ei "eiResponse") ei_EiResponseType;
    one (in_oadr "oadrPendingReports") oadr_oadrPendingReportsType;
    opt (in_ei "venID") (Simple [] Text)].
(** schema/oadr_xcal_20b.xsd:119-128 *)
Definition xcal_WsCalendarIntervalType : ty := Complex [] [
    one (in_xcal "properties") xcal_properties_element].
(** schema/oadr_ei_20b.xsd:823-891 *)
Definition ei_ReadingTypeEnumeratedType : simple := OneOf Token [
    "Direct Read"; "Net"; "Allocated"; "Estimated"; "Summed"; "Derived"; "Mean"; "Peak"; "Hybrid"; "Contract"; "Projected"; "x-RMS";
    "x-notApplicable"].
(** schema/oadr_ei_20b.xsd:816-821 *)
Definition ei_ReadingTypeType : simple := Union [ei_ReadingTypeEnumeratedType; ei_EiExtensionTokenType].
(** schema/oadr_ei_20b.xsd:967-980 *)
Definition ei_SpecifierPayloadType : ty := Complex [] [
    one (in_ei "rID") (Simple [] Text);
    opt_of measurement_elements;
    one (in_ei "readingType") (Simple [] ei_ReadingTypeType)].
(** schema/oadr_ei_20b.xsd:941-964 *)
Definition ei_ReportSpecifierType : ty := Complex [] [
    one (in_ei "reportSpecifierID") (Simple [] Text);
    one (in_xcal "granularity") xcal_DurationPropType;
    one (in_ei "reportBackDuration") xcal_DurationPropType;
    opt (in_ei "reportInterval") xcal_WsCalendarIntervalType;
    some (in_ei "specifierPayload") ei_SpecifierPayloadType].
(** schema/oadr_20b.xsd:750-758 *)
Definition oadr_oadrReportRequestType : ty := Complex [] [
    one (in_ei "reportRequestID") (Simple [] Text);
    one (in_ei "reportSpecifier") ei_ReportSpecifierType].
(** schema/oadr_20b.xsd:199-210 *)
Definition oadr_oadrCreateReportType : ty := Complex [(in_ei "schemaVersion", ei_schemaVersionType)] [
    one (in_pyld "requestID") (Simple [] Text);
    some (in_oadr "oadrReportRequest") oadr_oadrReportRequestType;
    opt (in_ei "venID") (Simple [] Text)].
(** schema/oadr_20b.xsd:217-228 *)
Definition oadr_oadrCreatedReportType : ty := Complex [(in_ei "schemaVersion", ei_schemaVersionType)] [
    one (in_ei "eiResponse") ei_EiResponseType;
    one (in_oadr "oadrPendingReports") oadr_oadrPendingReportsType;
    opt (in_ei "venID") (Simple [] Text)].
(** schema/oadr_ei_20b.xsd:684-810 *)
Definition ei_ReportEnumeratedType : simple := OneOf Token [
    "reading"; "usage"; "demand"; "setPoint"; "deltaUsage"; "deltaSetPoint"; "deltaDemand"; "baseline"; "deviation"; "avgUsage";
    "avgDemand"; "operatingState"; "upRegulationCapacityAvailable"; "downRegulationCapacityAvailable"; "regulationSetpoint";
    "storedEnergy"; "targetEnergyStorage"; "availableEnergyStorage"; "price"; "level"; "powerFactor"; "percentUsage";
    "percentDemand"; "x-resourceStatus"].
(** schema/oadr_ei_20b.xsd:677-682 *)
Definition ei_ReportTypeType : simple := Union [ei_ReportEnumeratedType; ei_EiExtensionTokenType].
(** schema/oadr_20b.xsd:819-837 *)
Definition oadr_oadrSamplingRateType : ty := Complex [] [
    one (in_oadr "oadrMinPeriod") (Simple [] xcal_DurationValueType);
    one (in_oadr "oadrMaxPeriod") (Simple [] xcal_DurationValueType);
    one (in_oadr "oadrOnChange") (Simple [] Boolean)].
(** schema/oadr_20b.xsd:800-818 *)
Definition oadr_oadrReportDescriptionType : ty := Complex [] [
    one (in_ei "rID") (Simple [] Text);
    opt (in_ei "reportSubject") ei_EiTargetType;
    opt (in_ei "reportDataSource") ei_EiTargetType;
    one (in_ei "reportType") (Simple [] ei_ReportTypeType);
    opt_of measurement_elements;
    one (in_ei "readingType") (Simple [] ei_ReadingTypeType);
    opt (in_emix "marketContext") (Simple [] emix_MarketContextType);
    opt (in_oadr "oadrSamplingRate") oadr_oadrSamplingRateType].
(** schema/oadr_ei_20b.xsd:644-655 *)
Definition ei_reportNameEnumeratedType : simple := OneOf Token ["METADATA_HISTORY_USAGE"; "HISTORY_USAGE"; "METADATA_HISTORY_GREENBUTTON"; "HISTORY_GREENBUTTON"; "METADATA_TELEMETRY_USAGE"; "TELEMETRY_USAGE"; "METADATA_TELEMETRY_STATUS"; "TELEMETRY_STATUS"].
(** schema/oadr_ei_20b.xsd:641-643 *)
Definition ei_reportNameType : simple := Union [ei_reportNameEnumeratedType; ei_EiExtensionTokenType].
(** schema/oadr_20b.xsd:761-797 *)
Definition oadr_oadrReportType : ty := Complex [] [
    opt (in_xcal "dtstart") xcal_dtstart_element;
    opt (in_xcal "duration") xcal_DurationPropType;
    opt (in_strm "intervals") strm_intervals_element;
    opt (in_ei "eiReportID") (Simple [] Text);
    many (in_oadr "oadrReportDescription") oadr_oadrReportDescriptionType;
    one (in_ei "reportRequestID") (Simple [] Text);
    one (in_ei "reportSpecifierID") (Simple [] Text);
    opt (in_ei "reportName") (Simple [] ei_reportNameType);
    one (in_ei "createdDateTime") (Simple [] xcal_DateTimeType)].
(** schema/oadr_20b.xsd:235-243 *)
Definition oadr_oadrRegisterReportType : ty := Complex [(in_ei "schemaVersion", ei_schemaVersionType)] [
    one (in_pyld "requestID") (Simple [] Text);
    many (in_oadr "oadrReport") oadr_oadrReportType;
    opt (in_ei "venID") (Simple [] Text);
    opt (in_ei "reportRequestID") (Simple [] Text)].
(** schema/oadr_20b.xsd:250-257 *)
Definition oadr_oadrRegisteredReportType : ty := Complex [(in_ei "schemaVersion", ei_schemaVersionType)] [
    one (in_ei "eiResponse") ei_EiResponseType;
    many (in_oadr "oadrReportRequest") oadr_oadrReportRequestType;
    opt (in_ei "venID") (Simple [] Text)].
(** schema/oadr_20b.xsd:264-271 *)
Definition oadr_oadrUpdateReportType : ty := Complex [(in_ei "schemaVersion", ei_schemaVersionType)] [
    one (in_pyld "requestID") (Simple [] Text);
    many (in_oadr "oadrReport") oadr_oadrReportType;
    opt (in_ei "venID") (Simple [] Text)].
(** schema/oadr_20b.xsd:278-285 *)
Definition oadr_oadrUpdatedReportType : ty := Complex [(in_ei "schemaVersion", ei_schemaVersionType)] [
    one (in_ei "eiResponse") ei_EiResponseType;
    opt (in_oadr "oadrCancelReport") oadr_oadrCancelReportType;
    opt (in_ei "venID") (Simple [] Text)].
(** schema/oadr_ei_20b.xsd:995-1000 *)
Definition ei_UidType : simple := Text.
(** schema/oadr_20b.xsd:293-300 *)
Definition oadr_oadrCancelPartyRegistrationType : ty := Complex [(in_ei "schemaVersion", ei_schemaVersionType)] [
    one (in_pyld "requestID") (Simple [] Text);
    one (in_ei "registrationID") (Simple [] ei_UidType);
    opt (in_ei "venID") (Simple [] Text)].
(** schema/oadr_20b.xsd:307-314 *)
Definition oadr_oadrCanceledPartyRegistrationType : ty := Complex [(in_ei "schemaVersion", ei_schemaVersionType)] [
    one (in_ei "eiResponse") ei_EiResponseType;
    opt (in_ei "registrationID") (Simple [] ei_UidType);
    opt (in_ei "venID") (Simple [] Text)].
(** schema/oadr_20b.xsd:472-477 *)
Definition oadr_oadrProfileType : simple := OneOf Token ["2.0a"; "2.0b"].
(** schema/oadr_20b.xsd:500-505 *)
Definition oadr_oadrTransportType : simple := OneOf Token ["simpleHttp"; "xmpp"].
(** schema/oadr_20b.xsd:321-359 *)
Definition oadr_oadrCreatePartyRegistrationType : ty := Complex [(in_ei "schemaVersion", ei_schemaVersionType)] [
    one (in_pyld "requestID") (Simple [] Text);
    opt (in_ei "registrationID") (Simple [] ei_UidType);
    opt (in_ei "venID") (Simple [] Text);
    one (in_oadr "oadrProfileName") (Simple [] oadr_oadrProfileType);
    one (in_oadr "oadrTransportName") (Simple [] oadr_oadrTransportType);
    opt (in_oadr "oadrTransportAddress") (Simple [] Text);
    one (in_oadr "oadrReportOnly") (Simple [] Boolean);
    one (in_oadr "oadrXmlSignature") (Simple [] Boolean);
    opt (in_oadr "oadrVenName") (Simple [] Text);
    opt (in_oadr "oadrHttpPullModel") (Simple [] Boolean)].
(** schema/oadr_20b.xsd:486-490 *)
Definition oadr_oadrTransports_element_oadrTransport : ty := Complex [] [
    one (in_oadr "oadrTransportName") (Simple [] oadr_oadrTransportType)].
(** schema/oadr_20b.xsd:483-493 *)
Definition oadr_oadrTransports_element : ty := Complex [] [
    some (in_oadr "oadrTransport") oadr_oadrTransports_element_oadrTransport].
(** schema/oadr_20b.xsd:457-462 *)
Definition oadr_oadrProfiles_element_oadrProfile : ty := Complex [] [
    one (in_oadr "oadrProfileName") (Simple [] oadr_oadrProfileType);
    one (in_oadr "oadrTransports") oadr_oadrTransports_element].
(** schema/oadr_20b.xsd:454-465 *)
Definition oadr_oadrProfiles_element : ty := Complex [] [
    some (in_oadr "oadrProfile") oadr_oadrProfiles_element_oadrProfile].
(** schema/oadr_20b.xsd:527-535 *)
Definition oadr_oadrServiceNameType : simple := OneOf Token ["EiEvent"; "EiOpt"; "EiReport"; "EiRegisterParty"; "OadrPoll"].
(** schema/oadr_20b.xsd:541-546 *)
Definition oadr_oadrInfo_element : ty := Complex [] [
    one (in_oadr "oadrKey") (Simple [] Text);
    one (in_oadr "oadrValue") (Simple [] Text)].
(** schema/oadr_20b.xsd:515-520 *)
Definition oadr_oadrServiceSpecificInfo_element_oadrService : ty := Complex [] [
    one (in_oadr "oadrServiceName") (Simple [] oadr_oadrServiceNameType);
    some (in_oadr "oadrInfo") oadr_oadrInfo_element].
(** schema/oadr_20b.xsd:512-523 *)
Definition oadr_oadrServiceSpecificInfo_element : ty := Complex [] [
    many (in_oadr "oadrService") oadr_oadrServiceSpecificInfo_element_oadrService].
(** schema/oadr_20b.xsd:391-396 *)
Definition oadr_oadrCreatedPartyRegistrationType_oadrExtensions_oadrExtension : ty := Complex [] [
    one (in_oadr "oadrExtensionName") (Simple [] Text);
    many (in_oadr "oadrInfo") oadr_oadrInfo_element].
(** schema/oadr_20b.xsd:388-399 *)
Definition oadr_oadrCreatedPartyRegistrationType_oadrExtensions : ty := Complex [] [
    many (in_oadr "oadrExtension") oadr_oadrCreatedPartyRegistrationType_oadrExtensions_oadrExtension].
(** schema/oadr_20b.xsd:366-403 *)
Definition oadr_oadrCreatedPartyRegistrationType : ty := Complex [(in_ei "schemaVersion", ei_schemaVersionType)] [
    one (in_ei "eiResponse") ei_EiResponseType;
    opt (in_ei "registrationID") (Simple [] ei_UidType);
    opt (in_ei "venID") (Simple [] Text);
    one (in_ei "vtnID") (Simple [] Text);
    one (in_oadr "oadrProfiles") oadr_oadrProfiles_element;
    opt (in_oadr "oadrRequestedOadrPollFreq") xcal_DurationPropType;
    opt (in_oadr "oadrServiceSpecificInfo") oadr_oadrServiceSpecificInfo_element;
    opt (in_oadr "oadrExtensions") oadr_oadrCreatedPartyRegistrationType_oadrExtensions].
(** schema/oadr_20b.xsd:410-415 *)
Definition oadr_oadrRequestReregistrationType : ty := Complex [(in_ei "schemaVersion", ei_schemaVersionType)] [
    one (in_ei "venID") (Simple [] Text)].
(** schema/oadr_20b.xsd:422-427 *)
Definition oadr_oadrQueryRegistrationType : ty := Complex [(in_ei "schemaVersion", ei_schemaVersionType)] [
    one (in_pyld "requestID") (Simple [] Text)].
(** schema/oadr_20b.xsd:435-440 *)
Definition oadr_oadrPollType : ty := Complex [(in_ei "schemaVersion", ei_schemaVersionType)] [
    one (in_ei "venID") (Simple [] Text)].
(** schema/oadr_20b.xsd:28-55 *)
Definition oadr_oadrSignedObject_element : ty := Complex [(in_oadr "Id", Id)] [
    one_of [
      (in_oadr "oadrDistributeEvent", oadr_oadrDistributeEventType);
      (in_oadr "oadrCreatedEvent", oadr_oadrCreatedEventType);
      (in_oadr "oadrRequestEvent", oadr_oadrRequestEventType);
      (in_oadr "oadrResponse", oadr_oadrResponseType);
      (in_oadr "oadrCancelOpt", oadr_oadrCancelOptType);
      (in_oadr "oadrCanceledOpt", oadr_oadrCanceledOptType);
      (in_oadr "oadrCreateOpt", oadr_oadrCreateOptType);
      (in_oadr "oadrCreatedOpt", oadr_oadrCreatedOptType);
      (in_oadr "oadrCancelReport", oadr_oadrCancelReportType);
      (in_oadr "oadrCanceledReport", oadr_oadrCanceledReportType);
      (in_oadr "oadrCreateReport", oadr_oadrCreateReportType);
      (in_oadr "oadrCreatedReport", oadr_oadrCreatedReportType);
      (in_oadr "oadrRegisterReport", oadr_oadrRegisterReportType);
      (in_oadr "oadrRegisteredReport", oadr_oadrRegisteredReportType);
      (in_oadr "oadrUpdateReport", oadr_oadrUpdateReportType);
      (in_oadr "oadrUpdatedReport", oadr_oadrUpdatedReportType);
      (in_oadr "oadrCancelPartyRegistration", oadr_oadrCancelPartyRegistrationType);
      (in_oadr "oadrCanceledPartyRegistration", oadr_oadrCanceledPartyRegistrationType);
      (in_oadr "oadrCreatePartyRegistration", oadr_oadrCreatePartyRegistrationType);
      (in_oadr "oadrCreatedPartyRegistration", oadr_oadrCreatedPartyRegistrationType);
      (in_oadr "oadrRequestReregistration", oadr_oadrRequestReregistrationType);
      (in_oadr "oadrQueryRegistration", oadr_oadrQueryRegistrationType);
      (in_oadr "oadrPoll", oadr_oadrPollType)]].
(** schema/oadr_20b.xsd:18-23 *)
Definition oadr_oadrPayload_element : ty := Complex [] [
    opt (in_ds "Signature") Foreign;
    one (in_oadr "oadrSignedObject") oadr_oadrSignedObject_element].

(** messaging.py:91-98 validate_xml_schema: the tree, or XMLSyntaxError.  The
    schema file is oadr_20b.xsd (messaging.py:38-42). *)
Definition validate_xml_schema (uri : string -> bool) (foreign : xml -> bool) (content : string) : result xml :=
  match read_expanded content with
  | Some x => if valid_document uri foreign (in_oadr "oadrPayload") oadr_oadrPayload_element x then Ok x else Raise XMLSyntaxError
  | None => Raise XMLSyntaxError
  end.
