(** * SpecNumbers: the assigned numbers (IANA registries, RFC 791-793), written
    down independently of the code: what each named value must stand for. *)
From Verif Require Import Base Enums.

(** Consecutive numbers starting at [n]. *)
Fixpoint numbered {A} (n : N) (l : list A) : list (A * N) :=
  match l with [] => [] | x :: l' => (x, n) :: numbered (n + 1) l' end.

(** IANA protocol-numbers: 0 to 142, then the two experimental ones. *)
Definition ip_registry : list (ip_protocol * N) := numbered 0
  [IP_Hopopt; IP_Icmp; IP_Igmp; IP_Ggp; IP_Ipv4; IP_St; IP_Tcp; IP_Cbt; IP_Egp; IP_Igp; IP_BbnRccMon; IP_NvpII; IP_Pup; IP_Argus; IP_Emcon; IP_Xnet; IP_Chaos; IP_Udp; IP_Mux; IP_DcnMeas;
   IP_Hmp; IP_Prm; IP_XnsIdp; IP_Trunk1; IP_Trunk2; IP_Leaf1; IP_Leaf2; IP_Rdp; IP_Irtp; IP_IsoTp4; IP_Netblt; IP_MfeNsp; IP_MeritInp; IP_Dccp; IP_ThreePc; IP_Idpr; IP_Xtp; IP_Ddp; IP_IdprCmtp; IP_TpPlusPlus;
   IP_Il; IP_Ipv6; IP_Sdrp; IP_Ipv6Route; IP_Ipv6Frag; IP_Idrp; IP_Rsvp; IP_Gre; IP_Dsr; IP_Bna; IP_Esp; IP_Ah; IP_INlsp; IP_Swipe; IP_Narp; IP_Mobile; IP_Tlsp; IP_Skip; IP_Ipv6Icmp; IP_Ipv6NoNxt;
   IP_Ipv6Opts; IP_HostInternal; IP_Cftp; IP_LocalNetwork; IP_SatExpak; IP_Kryptolan; IP_Rvd; IP_Ippc; IP_DistributedFs; IP_SatMon; IP_Visa; IP_Ipcv; IP_Cpnx; IP_Cphb; IP_Wsn; IP_Pvp; IP_BrSatMon; IP_SunNd; IP_WbMon; IP_WbExpak;
   IP_IsoIp; IP_Vmtp; IP_SecureVmtp; IP_Vines; IP_TtpOrIptm; IP_NsfnetIgp; IP_Dgp; IP_Tcf; IP_Eigrp; IP_OspfigP; IP_SpriteRpc; IP_Larp; IP_Mtp; IP_Ax25; IP_IpIp; IP_Micp; IP_SccSp; IP_Etherip; IP_Encap; IP_PrivEncryption;
   IP_Gmtp; IP_Ifmp; IP_Pnni; IP_Pim; IP_Aris; IP_Scps; IP_Qnx; IP_AN; IP_IpComp; IP_Snp; IP_CompaqPeer; IP_IpxInIp; IP_Vrrp; IP_Pgm; IP_ZeroHop; IP_L2tp; IP_Ddx; IP_Iatp; IP_Stp; IP_Srp;
   IP_Uti; IP_Smp; IP_Sm; IP_Ptp; IP_IsisOverIpv4; IP_Fire; IP_Crtp; IP_Crudp; IP_Sscopmce; IP_Iplt; IP_Sps; IP_Pipe; IP_Sctp; IP_Fc; IP_RsvpE2eIgnore; IP_MobilityHeader; IP_UdpLite; IP_MplsInIp; IP_Manet; IP_Hip;
   IP_Shim6; IP_Wesp; IP_Rohc] ++
  [(IP_Test1, 253); (IP_Test2, 254)].
(** IEEE EtherTypes, in hexadecimal as registered. *)
Definition ether_registry : list (ether_protocol * N) :=
  [(ET_Ipv4, 0x0800); (ET_Arp, 0x0806); (ET_WakeOnLan, 0x0842); (ET_Trill, 0x22F3);
   (ET_DecNet, 0x6003); (ET_Rarp, 0x8035); (ET_AppleTalk, 0x809B); (ET_Aarp, 0x80F3);
   (ET_Vlan, 0x8100); (ET_Ipx, 0x8137); (ET_Qnx, 0x8204); (ET_Ipv6, 0x86DD);
   (ET_FlowControl, 0x8808); (ET_CobraNet, 0x8819); (ET_Mpls, 0x8847);
   (ET_MplsMulticast, 0x8848); (ET_PppoeDiscovery, 0x8863); (ET_PppoeSession, 0x8864);
   (ET_PBridge, 0x88A8); (ET_Lldp, 0x88CC); (ET_Ptp, 0x88F7); (ET_Cfm, 0x8902);
   (ET_QinQ, 0x9100)].
(** ICMP types (RFC 792, 950, 1256, 1393). *)
Definition icmp_registry : list (icmp_kind * N) :=
  [(K_EchoReply, 0); (K_DestinationUnreachable, 3); (K_SourceQuench, 4);
   (K_RedirectMessage, 5); (K_EchoRequest, 8); (K_RouterAdvertisement, 9);
   (K_RouterSolicitation, 10); (K_TimeExceeded, 11); (K_ParameterProblem, 12);
   (K_TimestampRequest, 13); (K_TimestampReply, 14); (K_InformationRequest, 15);
   (K_InformationReply, 16); (K_AddressMaskRequest, 17); (K_AddressMaskReply, 18);
   (K_TraceRoute, 30)].
(** Codes of types 3 (RFC 792, 1122, 1812), 5 and 12. *)
Definition dest_unreachable_registry : list (dest_unreachable * N) := numbered 0
  [DU_DestinationNetworkUnreachable; DU_DestinationHostUnreachable;
   DU_DestinationProtocolUnreachable; DU_DestinationPortUnreachable;
   DU_FragmentationRequired; DU_SourceRouteFailed; DU_DestinationNetworkUnknown;
   DU_DestinationHostUnknown; DU_SourceHostIsolated; DU_NetworkAdministrativelyProhibited;
   DU_HostAdministrativelyProhibited; DU_NetworkUnreachableForTos; DU_HostUnreachableForTos;
   DU_CommunicationAdministrativelyProhibited; DU_HostPrecedenceViolation;
   DU_PrecedentCutoffInEffect].
Definition redirect_registry : list (redirect_code * N) := numbered 0
  [RC_RedirectDatagramForNetwork; RC_RedirectDatagramForHost;
   RC_RedirectDatagramForTosAndNetwork; RC_RedirectDatagramForTosAndHost].
Definition param_registry : list (param_code * N) := numbered 0
  [PC_PointerIndicatesError; PC_MissingRequiredData; PC_BadLength].
(** IP option numbers (IANA ip-parameters), five bits. *)
Definition v4opt_registry : list (v4opt_number * N) :=
  numbered 0
  [ON_End; ON_NoOperation; ON_Security; ON_LooseSourceRoute; ON_TimeStamp;
   ON_ExtendedSecurity; ON_CommercialSecurity; ON_RecordRoute; ON_StreamId;
   ON_StrictSourceRoute; ON_ExperimentalMeasurement; ON_MtuProbe; ON_MtuReply;
   ON_ExperimentalFlowControl; ON_ExperimentalAccessControl] ++
  numbered 16 [ON_ImiTrafficDescriptor; ON_ExtendedInternetProtocol; ON_TraceRoute;
   ON_AddressExtension; ON_RouterAlert; ON_SelectiveDirectedBroadcast] ++
  numbered 23 [ON_DynamicPacketState; ON_UpstreamMulticastPacket; ON_QuickStart].
(** TCP option kinds. *)
Definition tcpopt_registry : list (tcpopt_number * N) :=
  numbered 0 [TN_End; TN_NoOperation; TN_MaximumSegmentSize; TN_WindowScale;
   TN_SelectiveAcknowledgmentPermitted; TN_SelectiveAcknowledgment] ++ [(TN_Timestamp, 8)].

(** What it means for a pair of conversions to be lossless with respect to a
    registry, [unknown] being the catch-all value. *)
Definition lossless {T} (from : N -> T) (into : T -> N) (unknown : N -> T) (registry : list (T * N)) : Prop :=
  (** number to value and back *)
  (forall n, into (from n) = n) /\
  (** a named value and back *)
  (forall v, (forall n, v <> unknown n) -> from (into v) = v) /\
  (** the named values are exactly the registered ones, with the registered number *)
  (forall v n, In (v, n) registry -> into v = n /\ from n = v) /\
  (forall v, (forall n, v <> unknown n) -> In v (map fst registry)) /\
  (** the catch-all is for the other numbers; it survives the round trip just then *)
  (forall n, into (unknown n) = n) /\
  (forall n, from n = unknown n <-> ~ In n (map snd registry)).
