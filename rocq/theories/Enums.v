(** * Enums: every number/enum conversion of the crate.
    Generated by tools/gen_enums.py from the match arms in /repo (one arm per line,
    same order); the arms are a literal transcription. *)
From Verif Require Import Base.

(** src/ip/protocol.rs:17-455: enum Protocol *)
Inductive ip_protocol :=
| IP_Hopopt
| IP_Icmp
| IP_Igmp
| IP_Ggp
| IP_Ipv4
| IP_St
| IP_Tcp
| IP_Cbt
| IP_Egp
| IP_Igp
| IP_BbnRccMon
| IP_NvpII
| IP_Pup
| IP_Argus
| IP_Emcon
| IP_Xnet
| IP_Chaos
| IP_Udp
| IP_Mux
| IP_DcnMeas
| IP_Hmp
| IP_Prm
| IP_XnsIdp
| IP_Trunk1
| IP_Trunk2
| IP_Leaf1
| IP_Leaf2
| IP_Rdp
| IP_Irtp
| IP_IsoTp4
| IP_Netblt
| IP_MfeNsp
| IP_MeritInp
| IP_Dccp
| IP_ThreePc
| IP_Idpr
| IP_Xtp
| IP_Ddp
| IP_IdprCmtp
| IP_TpPlusPlus
| IP_Il
| IP_Ipv6
| IP_Sdrp
| IP_Ipv6Route
| IP_Ipv6Frag
| IP_Idrp
| IP_Rsvp
| IP_Gre
| IP_Dsr
| IP_Bna
| IP_Esp
| IP_Ah
| IP_INlsp
| IP_Swipe
| IP_Narp
| IP_Mobile
| IP_Tlsp
| IP_Skip
| IP_Ipv6Icmp
| IP_Ipv6NoNxt
| IP_Ipv6Opts
| IP_HostInternal
| IP_Cftp
| IP_LocalNetwork
| IP_SatExpak
| IP_Kryptolan
| IP_Rvd
| IP_Ippc
| IP_DistributedFs
| IP_SatMon
| IP_Visa
| IP_Ipcv
| IP_Cpnx
| IP_Cphb
| IP_Wsn
| IP_Pvp
| IP_BrSatMon
| IP_SunNd
| IP_WbMon
| IP_WbExpak
| IP_IsoIp
| IP_Vmtp
| IP_SecureVmtp
| IP_Vines
| IP_TtpOrIptm
| IP_NsfnetIgp
| IP_Dgp
| IP_Tcf
| IP_Eigrp
| IP_OspfigP
| IP_SpriteRpc
| IP_Larp
| IP_Mtp
| IP_Ax25
| IP_IpIp
| IP_Micp
| IP_SccSp
| IP_Etherip
| IP_Encap
| IP_PrivEncryption
| IP_Gmtp
| IP_Ifmp
| IP_Pnni
| IP_Pim
| IP_Aris
| IP_Scps
| IP_Qnx
| IP_AN
| IP_IpComp
| IP_Snp
| IP_CompaqPeer
| IP_IpxInIp
| IP_Vrrp
| IP_Pgm
| IP_ZeroHop
| IP_L2tp
| IP_Ddx
| IP_Iatp
| IP_Stp
| IP_Srp
| IP_Uti
| IP_Smp
| IP_Sm
| IP_Ptp
| IP_IsisOverIpv4
| IP_Fire
| IP_Crtp
| IP_Crudp
| IP_Sscopmce
| IP_Iplt
| IP_Sps
| IP_Pipe
| IP_Sctp
| IP_Fc
| IP_RsvpE2eIgnore
| IP_MobilityHeader
| IP_UdpLite
| IP_MplsInIp
| IP_Manet
| IP_Hip
| IP_Shim6
| IP_Wesp
| IP_Rohc
| IP_Test1
| IP_Test2
| IP_Unknown (n : N).

(** src/ip/protocol.rs:457-610 (From) *)
Definition ip_protocol_from (value : N) : ip_protocol :=
  match value with
  | 0 => IP_Hopopt
  | 1 => IP_Icmp
  | 2 => IP_Igmp
  | 3 => IP_Ggp
  | 4 => IP_Ipv4
  | 5 => IP_St
  | 6 => IP_Tcp
  | 7 => IP_Cbt
  | 8 => IP_Egp
  | 9 => IP_Igp
  | 10 => IP_BbnRccMon
  | 11 => IP_NvpII
  | 12 => IP_Pup
  | 13 => IP_Argus
  | 14 => IP_Emcon
  | 15 => IP_Xnet
  | 16 => IP_Chaos
  | 17 => IP_Udp
  | 18 => IP_Mux
  | 19 => IP_DcnMeas
  | 20 => IP_Hmp
  | 21 => IP_Prm
  | 22 => IP_XnsIdp
  | 23 => IP_Trunk1
  | 24 => IP_Trunk2
  | 25 => IP_Leaf1
  | 26 => IP_Leaf2
  | 27 => IP_Rdp
  | 28 => IP_Irtp
  | 29 => IP_IsoTp4
  | 30 => IP_Netblt
  | 31 => IP_MfeNsp
  | 32 => IP_MeritInp
  | 33 => IP_Dccp
  | 34 => IP_ThreePc
  | 35 => IP_Idpr
  | 36 => IP_Xtp
  | 37 => IP_Ddp
  | 38 => IP_IdprCmtp
  | 39 => IP_TpPlusPlus
  | 40 => IP_Il
  | 41 => IP_Ipv6
  | 42 => IP_Sdrp
  | 43 => IP_Ipv6Route
  | 44 => IP_Ipv6Frag
  | 45 => IP_Idrp
  | 46 => IP_Rsvp
  | 47 => IP_Gre
  | 48 => IP_Dsr
  | 49 => IP_Bna
  | 50 => IP_Esp
  | 51 => IP_Ah
  | 52 => IP_INlsp
  | 53 => IP_Swipe
  | 54 => IP_Narp
  | 55 => IP_Mobile
  | 56 => IP_Tlsp
  | 57 => IP_Skip
  | 58 => IP_Ipv6Icmp
  | 59 => IP_Ipv6NoNxt
  | 60 => IP_Ipv6Opts
  | 61 => IP_HostInternal
  | 62 => IP_Cftp
  | 63 => IP_LocalNetwork
  | 64 => IP_SatExpak
  | 65 => IP_Kryptolan
  | 66 => IP_Rvd
  | 67 => IP_Ippc
  | 68 => IP_DistributedFs
  | 69 => IP_SatMon
  | 70 => IP_Visa
  | 71 => IP_Ipcv
  | 72 => IP_Cpnx
  | 73 => IP_Cphb
  | 74 => IP_Wsn
  | 75 => IP_Pvp
  | 76 => IP_BrSatMon
  | 77 => IP_SunNd
  | 78 => IP_WbMon
  | 79 => IP_WbExpak
  | 80 => IP_IsoIp
  | 81 => IP_Vmtp
  | 82 => IP_SecureVmtp
  | 83 => IP_Vines
  | 84 => IP_TtpOrIptm
  | 85 => IP_NsfnetIgp
  | 86 => IP_Dgp
  | 87 => IP_Tcf
  | 88 => IP_Eigrp
  | 89 => IP_OspfigP
  | 90 => IP_SpriteRpc
  | 91 => IP_Larp
  | 92 => IP_Mtp
  | 93 => IP_Ax25
  | 94 => IP_IpIp
  | 95 => IP_Micp
  | 96 => IP_SccSp
  | 97 => IP_Etherip
  | 98 => IP_Encap
  | 99 => IP_PrivEncryption
  | 100 => IP_Gmtp
  | 101 => IP_Ifmp
  | 102 => IP_Pnni
  | 103 => IP_Pim
  | 104 => IP_Aris
  | 105 => IP_Scps
  | 106 => IP_Qnx
  | 107 => IP_AN
  | 108 => IP_IpComp
  | 109 => IP_Snp
  | 110 => IP_CompaqPeer
  | 111 => IP_IpxInIp
  | 112 => IP_Vrrp
  | 113 => IP_Pgm
  | 114 => IP_ZeroHop
  | 115 => IP_L2tp
  | 116 => IP_Ddx
  | 117 => IP_Iatp
  | 118 => IP_Stp
  | 119 => IP_Srp
  | 120 => IP_Uti
  | 121 => IP_Smp
  | 122 => IP_Sm
  | 123 => IP_Ptp
  | 124 => IP_IsisOverIpv4
  | 125 => IP_Fire
  | 126 => IP_Crtp
  | 127 => IP_Crudp
  | 128 => IP_Sscopmce
  | 129 => IP_Iplt
  | 130 => IP_Sps
  | 131 => IP_Pipe
  | 132 => IP_Sctp
  | 133 => IP_Fc
  | 134 => IP_RsvpE2eIgnore
  | 135 => IP_MobilityHeader
  | 136 => IP_UdpLite
  | 137 => IP_MplsInIp
  | 138 => IP_Manet
  | 139 => IP_Hip
  | 140 => IP_Shim6
  | 141 => IP_Wesp
  | 142 => IP_Rohc
  | 253 => IP_Test1
  | 254 => IP_Test2
  | _ => IP_Unknown value
  end.

(** src/ip/protocol.rs:612-765 (Into) *)
Definition ip_protocol_into (self : ip_protocol) : N :=
  match self with
  | IP_Hopopt => 0
  | IP_Icmp => 1
  | IP_Igmp => 2
  | IP_Ggp => 3
  | IP_Ipv4 => 4
  | IP_St => 5
  | IP_Tcp => 6
  | IP_Cbt => 7
  | IP_Egp => 8
  | IP_Igp => 9
  | IP_BbnRccMon => 10
  | IP_NvpII => 11
  | IP_Pup => 12
  | IP_Argus => 13
  | IP_Emcon => 14
  | IP_Xnet => 15
  | IP_Chaos => 16
  | IP_Udp => 17
  | IP_Mux => 18
  | IP_DcnMeas => 19
  | IP_Hmp => 20
  | IP_Prm => 21
  | IP_XnsIdp => 22
  | IP_Trunk1 => 23
  | IP_Trunk2 => 24
  | IP_Leaf1 => 25
  | IP_Leaf2 => 26
  | IP_Rdp => 27
  | IP_Irtp => 28
  | IP_IsoTp4 => 29
  | IP_Netblt => 30
  | IP_MfeNsp => 31
  | IP_MeritInp => 32
  | IP_Dccp => 33
  | IP_ThreePc => 34
  | IP_Idpr => 35
  | IP_Xtp => 36
  | IP_Ddp => 37
  | IP_IdprCmtp => 38
  | IP_TpPlusPlus => 39
  | IP_Il => 40
  | IP_Ipv6 => 41
  | IP_Sdrp => 42
  | IP_Ipv6Route => 43
  | IP_Ipv6Frag => 44
  | IP_Idrp => 45
  | IP_Rsvp => 46
  | IP_Gre => 47
  | IP_Dsr => 48
  | IP_Bna => 49
  | IP_Esp => 50
  | IP_Ah => 51
  | IP_INlsp => 52
  | IP_Swipe => 53
  | IP_Narp => 54
  | IP_Mobile => 55
  | IP_Tlsp => 56
  | IP_Skip => 57
  | IP_Ipv6Icmp => 58
  | IP_Ipv6NoNxt => 59
  | IP_Ipv6Opts => 60
  | IP_HostInternal => 61
  | IP_Cftp => 62
  | IP_LocalNetwork => 63
  | IP_SatExpak => 64
  | IP_Kryptolan => 65
  | IP_Rvd => 66
  | IP_Ippc => 67
  | IP_DistributedFs => 68
  | IP_SatMon => 69
  | IP_Visa => 70
  | IP_Ipcv => 71
  | IP_Cpnx => 72
  | IP_Cphb => 73
  | IP_Wsn => 74
  | IP_Pvp => 75
  | IP_BrSatMon => 76
  | IP_SunNd => 77
  | IP_WbMon => 78
  | IP_WbExpak => 79
  | IP_IsoIp => 80
  | IP_Vmtp => 81
  | IP_SecureVmtp => 82
  | IP_Vines => 83
  | IP_TtpOrIptm => 84
  | IP_NsfnetIgp => 85
  | IP_Dgp => 86
  | IP_Tcf => 87
  | IP_Eigrp => 88
  | IP_OspfigP => 89
  | IP_SpriteRpc => 90
  | IP_Larp => 91
  | IP_Mtp => 92
  | IP_Ax25 => 93
  | IP_IpIp => 94
  | IP_Micp => 95
  | IP_SccSp => 96
  | IP_Etherip => 97
  | IP_Encap => 98
  | IP_PrivEncryption => 99
  | IP_Gmtp => 100
  | IP_Ifmp => 101
  | IP_Pnni => 102
  | IP_Pim => 103
  | IP_Aris => 104
  | IP_Scps => 105
  | IP_Qnx => 106
  | IP_AN => 107
  | IP_IpComp => 108
  | IP_Snp => 109
  | IP_CompaqPeer => 110
  | IP_IpxInIp => 111
  | IP_Vrrp => 112
  | IP_Pgm => 113
  | IP_ZeroHop => 114
  | IP_L2tp => 115
  | IP_Ddx => 116
  | IP_Iatp => 117
  | IP_Stp => 118
  | IP_Srp => 119
  | IP_Uti => 120
  | IP_Smp => 121
  | IP_Sm => 122
  | IP_Ptp => 123
  | IP_IsisOverIpv4 => 124
  | IP_Fire => 125
  | IP_Crtp => 126
  | IP_Crudp => 127
  | IP_Sscopmce => 128
  | IP_Iplt => 129
  | IP_Sps => 130
  | IP_Pipe => 131
  | IP_Sctp => 132
  | IP_Fc => 133
  | IP_RsvpE2eIgnore => 134
  | IP_MobilityHeader => 135
  | IP_UdpLite => 136
  | IP_MplsInIp => 137
  | IP_Manet => 138
  | IP_Hip => 139
  | IP_Shim6 => 140
  | IP_Wesp => 141
  | IP_Rohc => 142
  | IP_Test1 => 253
  | IP_Test2 => 254
  | IP_Unknown n => n
  end.

(** src/ether/protocol.rs:17-89: enum Protocol *)
Inductive ether_protocol :=
| ET_Ipv4
| ET_Arp
| ET_WakeOnLan
| ET_Trill
| ET_DecNet
| ET_Rarp
| ET_AppleTalk
| ET_Aarp
| ET_Ipx
| ET_Qnx
| ET_Ipv6
| ET_FlowControl
| ET_CobraNet
| ET_Mpls
| ET_MplsMulticast
| ET_PppoeDiscovery
| ET_PppoeSession
| ET_Vlan
| ET_PBridge
| ET_Lldp
| ET_Ptp
| ET_Cfm
| ET_QinQ
| ET_Unknown (n : N).

(** src/ether/protocol.rs:91-122 (From) *)
Definition ether_protocol_from (value : N) : ether_protocol :=
  match value with
  | 2048 => ET_Ipv4
  | 2054 => ET_Arp
  | 2114 => ET_WakeOnLan
  | 8947 => ET_Trill
  | 24579 => ET_DecNet
  | 32821 => ET_Rarp
  | 32923 => ET_AppleTalk
  | 33011 => ET_Aarp
  | 33079 => ET_Ipx
  | 33284 => ET_Qnx
  | 34525 => ET_Ipv6
  | 34824 => ET_FlowControl
  | 34841 => ET_CobraNet
  | 34887 => ET_Mpls
  | 34888 => ET_MplsMulticast
  | 34915 => ET_PppoeDiscovery
  | 34916 => ET_PppoeSession
  | 33024 => ET_Vlan
  | 34984 => ET_PBridge
  | 35020 => ET_Lldp
  | 35063 => ET_Ptp
  | 35074 => ET_Cfm
  | 37120 => ET_QinQ
  | _ => ET_Unknown value
  end.

(** src/ether/protocol.rs:124-155 (Into) *)
Definition ether_protocol_into (self : ether_protocol) : N :=
  match self with
  | ET_Ipv4 => 2048
  | ET_Arp => 2054
  | ET_WakeOnLan => 2114
  | ET_Trill => 8947
  | ET_DecNet => 24579
  | ET_Rarp => 32821
  | ET_AppleTalk => 32923
  | ET_Aarp => 33011
  | ET_Ipx => 33079
  | ET_Qnx => 33284
  | ET_Ipv6 => 34525
  | ET_FlowControl => 34824
  | ET_CobraNet => 34841
  | ET_Mpls => 34887
  | ET_MplsMulticast => 34888
  | ET_PppoeDiscovery => 34915
  | ET_PppoeSession => 34916
  | ET_Vlan => 33024
  | ET_PBridge => 34984
  | ET_Lldp => 35020
  | ET_Ptp => 35063
  | ET_Cfm => 35074
  | ET_QinQ => 37120
  | ET_Unknown n => n
  end.

(** src/icmp/kind.rs:17-68: enum Kind *)
Inductive icmp_kind :=
| K_EchoReply
| K_DestinationUnreachable
| K_SourceQuench
| K_RedirectMessage
| K_EchoRequest
| K_RouterAdvertisement
| K_RouterSolicitation
| K_TimeExceeded
| K_ParameterProblem
| K_TimestampRequest
| K_TimestampReply
| K_InformationRequest
| K_InformationReply
| K_AddressMaskRequest
| K_AddressMaskReply
| K_TraceRoute
| K_Unknown (n : N).

(** src/icmp/kind.rs:70-94 (From) *)
Definition icmp_kind_from (value : N) : icmp_kind :=
  match value with
  | 0 => K_EchoReply
  | 3 => K_DestinationUnreachable
  | 4 => K_SourceQuench
  | 5 => K_RedirectMessage
  | 8 => K_EchoRequest
  | 9 => K_RouterAdvertisement
  | 10 => K_RouterSolicitation
  | 11 => K_TimeExceeded
  | 12 => K_ParameterProblem
  | 13 => K_TimestampRequest
  | 14 => K_TimestampReply
  | 15 => K_InformationRequest
  | 16 => K_InformationReply
  | 17 => K_AddressMaskRequest
  | 18 => K_AddressMaskReply
  | 30 => K_TraceRoute
  | _ => K_Unknown value
  end.

(** src/icmp/kind.rs:96-120 (Into) *)
Definition icmp_kind_into (self : icmp_kind) : N :=
  match self with
  | K_EchoReply => 0
  | K_DestinationUnreachable => 3
  | K_SourceQuench => 4
  | K_RedirectMessage => 5
  | K_EchoRequest => 8
  | K_RouterAdvertisement => 9
  | K_RouterSolicitation => 10
  | K_TimeExceeded => 11
  | K_ParameterProblem => 12
  | K_TimestampRequest => 13
  | K_TimestampReply => 14
  | K_InformationRequest => 15
  | K_InformationReply => 16
  | K_AddressMaskRequest => 17
  | K_AddressMaskReply => 18
  | K_TraceRoute => 30
  | K_Unknown n => n
  end.

(** src/icmp/code.rs:17-68: enum DestinationUnreachable *)
Inductive dest_unreachable :=
| DU_DestinationNetworkUnreachable
| DU_DestinationHostUnreachable
| DU_DestinationProtocolUnreachable
| DU_DestinationPortUnreachable
| DU_FragmentationRequired
| DU_SourceRouteFailed
| DU_DestinationNetworkUnknown
| DU_DestinationHostUnknown
| DU_SourceHostIsolated
| DU_NetworkAdministrativelyProhibited
| DU_HostAdministrativelyProhibited
| DU_NetworkUnreachableForTos
| DU_HostUnreachableForTos
| DU_CommunicationAdministrativelyProhibited
| DU_HostPrecedenceViolation
| DU_PrecedentCutoffInEffect
| DU_Unknown (n : N).

(** src/icmp/code.rs:105-129 (From) *)
Definition dest_unreachable_from (value : N) : dest_unreachable :=
  match value with
  | 0 => DU_DestinationNetworkUnreachable
  | 1 => DU_DestinationHostUnreachable
  | 2 => DU_DestinationProtocolUnreachable
  | 3 => DU_DestinationPortUnreachable
  | 4 => DU_FragmentationRequired
  | 5 => DU_SourceRouteFailed
  | 6 => DU_DestinationNetworkUnknown
  | 7 => DU_DestinationHostUnknown
  | 8 => DU_SourceHostIsolated
  | 9 => DU_NetworkAdministrativelyProhibited
  | 10 => DU_HostAdministrativelyProhibited
  | 11 => DU_NetworkUnreachableForTos
  | 12 => DU_HostUnreachableForTos
  | 13 => DU_CommunicationAdministrativelyProhibited
  | 14 => DU_HostPrecedenceViolation
  | 15 => DU_PrecedentCutoffInEffect
  | _ => DU_Unknown value
  end.

(** src/icmp/code.rs:131-155 (Into) *)
Definition dest_unreachable_into (self : dest_unreachable) : N :=
  match self with
  | DU_DestinationNetworkUnreachable => 0
  | DU_DestinationHostUnreachable => 1
  | DU_DestinationProtocolUnreachable => 2
  | DU_DestinationPortUnreachable => 3
  | DU_FragmentationRequired => 4
  | DU_SourceRouteFailed => 5
  | DU_DestinationNetworkUnknown => 6
  | DU_DestinationHostUnknown => 7
  | DU_SourceHostIsolated => 8
  | DU_NetworkAdministrativelyProhibited => 9
  | DU_HostAdministrativelyProhibited => 10
  | DU_NetworkUnreachableForTos => 11
  | DU_HostUnreachableForTos => 12
  | DU_CommunicationAdministrativelyProhibited => 13
  | DU_HostPrecedenceViolation => 14
  | DU_PrecedentCutoffInEffect => 15
  | DU_Unknown n => n
  end.

(** src/icmp/code.rs:72-87: enum RedirectMessage *)
Inductive redirect_code :=
| RC_RedirectDatagramForNetwork
| RC_RedirectDatagramForHost
| RC_RedirectDatagramForTosAndNetwork
| RC_RedirectDatagramForTosAndHost
| RC_Unknown (n : N).

(** src/icmp/code.rs:157-169 (From) *)
Definition redirect_code_from (value : N) : redirect_code :=
  match value with
  | 0 => RC_RedirectDatagramForNetwork
  | 1 => RC_RedirectDatagramForHost
  | 2 => RC_RedirectDatagramForTosAndNetwork
  | 3 => RC_RedirectDatagramForTosAndHost
  | _ => RC_Unknown value
  end.

(** src/icmp/code.rs:171-183 (Into) *)
Definition redirect_code_into (self : redirect_code) : N :=
  match self with
  | RC_RedirectDatagramForNetwork => 0
  | RC_RedirectDatagramForHost => 1
  | RC_RedirectDatagramForTosAndNetwork => 2
  | RC_RedirectDatagramForTosAndHost => 3
  | RC_Unknown n => n
  end.

(** src/icmp/code.rs:91-103: enum ParameterProblem *)
Inductive param_code :=
| PC_PointerIndicatesError
| PC_MissingRequiredData
| PC_BadLength
| PC_Unknown (n : N).

(** src/icmp/code.rs:185-196 (From) *)
Definition param_code_from (value : N) : param_code :=
  match value with
  | 0 => PC_PointerIndicatesError
  | 1 => PC_MissingRequiredData
  | 2 => PC_BadLength
  | _ => PC_Unknown value
  end.

(** src/icmp/code.rs:198-209 (Into) *)
Definition param_code_into (self : param_code) : N :=
  match self with
  | PC_PointerIndicatesError => 0
  | PC_MissingRequiredData => 1
  | PC_BadLength => 2
  | PC_Unknown n => n
  end.

(** src/ip/v4/option.rs:59-134: enum Number *)
Inductive v4opt_number :=
| ON_End
| ON_NoOperation
| ON_Security
| ON_LooseSourceRoute
| ON_TimeStamp
| ON_ExtendedSecurity
| ON_CommercialSecurity
| ON_RecordRoute
| ON_StreamId
| ON_StrictSourceRoute
| ON_ExperimentalMeasurement
| ON_MtuProbe
| ON_MtuReply
| ON_ExperimentalFlowControl
| ON_ExperimentalAccessControl
| ON_ImiTrafficDescriptor
| ON_ExtendedInternetProtocol
| ON_TraceRoute
| ON_AddressExtension
| ON_RouterAlert
| ON_SelectiveDirectedBroadcast
| ON_DynamicPacketState
| ON_UpstreamMulticastPacket
| ON_QuickStart
| ON_Unknown (n : N).

(** src/ip/v4/option.rs:280-312 (From) *)
Definition v4opt_number_from (value : N) : v4opt_number :=
  match value with
  | 0 => ON_End
  | 1 => ON_NoOperation
  | 2 => ON_Security
  | 3 => ON_LooseSourceRoute
  | 4 => ON_TimeStamp
  | 5 => ON_ExtendedSecurity
  | 6 => ON_CommercialSecurity
  | 7 => ON_RecordRoute
  | 8 => ON_StreamId
  | 9 => ON_StrictSourceRoute
  | 10 => ON_ExperimentalMeasurement
  | 11 => ON_MtuProbe
  | 12 => ON_MtuReply
  | 13 => ON_ExperimentalFlowControl
  | 14 => ON_ExperimentalAccessControl
  | 16 => ON_ImiTrafficDescriptor
  | 17 => ON_ExtendedInternetProtocol
  | 18 => ON_TraceRoute
  | 19 => ON_AddressExtension
  | 20 => ON_RouterAlert
  | 21 => ON_SelectiveDirectedBroadcast
  | 23 => ON_DynamicPacketState
  | 24 => ON_UpstreamMulticastPacket
  | 25 => ON_QuickStart
  | _ => ON_Unknown value
  end.

(** src/ip/v4/option.rs:314-346 (Into) *)
Definition v4opt_number_into (self : v4opt_number) : N :=
  match self with
  | ON_End => 0
  | ON_NoOperation => 1
  | ON_Security => 2
  | ON_LooseSourceRoute => 3
  | ON_TimeStamp => 4
  | ON_ExtendedSecurity => 5
  | ON_CommercialSecurity => 6
  | ON_RecordRoute => 7
  | ON_StreamId => 8
  | ON_StrictSourceRoute => 9
  | ON_ExperimentalMeasurement => 10
  | ON_MtuProbe => 11
  | ON_MtuReply => 12
  | ON_ExperimentalFlowControl => 13
  | ON_ExperimentalAccessControl => 14
  | ON_ImiTrafficDescriptor => 16
  | ON_ExtendedInternetProtocol => 17
  | ON_TraceRoute => 18
  | ON_AddressExtension => 19
  | ON_RouterAlert => 20
  | ON_SelectiveDirectedBroadcast => 21
  | ON_DynamicPacketState => 23
  | ON_UpstreamMulticastPacket => 24
  | ON_QuickStart => 25
  | ON_Unknown n => n
  end.

(** src/tcp/option.rs:47-71: enum Number *)
Inductive tcpopt_number :=
| TN_End
| TN_NoOperation
| TN_MaximumSegmentSize
| TN_WindowScale
| TN_SelectiveAcknowledgmentPermitted
| TN_SelectiveAcknowledgment
| TN_Timestamp
| TN_Unknown (n : N).

(** src/tcp/option.rs:174-189 (From) *)
Definition tcpopt_number_from (value : N) : tcpopt_number :=
  match value with
  | 0 => TN_End
  | 1 => TN_NoOperation
  | 2 => TN_MaximumSegmentSize
  | 3 => TN_WindowScale
  | 4 => TN_SelectiveAcknowledgmentPermitted
  | 5 => TN_SelectiveAcknowledgment
  | 8 => TN_Timestamp
  | _ => TN_Unknown value
  end.

(** src/tcp/option.rs:191-206 (Into) *)
Definition tcpopt_number_into (self : tcpopt_number) : N :=
  match self with
  | TN_End => 0
  | TN_NoOperation => 1
  | TN_MaximumSegmentSize => 2
  | TN_WindowScale => 3
  | TN_SelectiveAcknowledgmentPermitted => 4
  | TN_SelectiveAcknowledgment => 5
  | TN_Timestamp => 8
  | TN_Unknown n => n
  end.

(** src/ip/v4/option.rs:46-55: enum Class *)
Inductive v4opt_class := OC_Control | OC_Debugging | OC_Reserved (n : N).

(** src/ip/v4/option.rs:256-268 (From); panics above 3. *)
Definition v4opt_class_from (value : N) : res v4opt_class :=
  match value with
  | 0 => Ok OC_Control
  | 1 => Ok (OC_Reserved 1)
  | 2 => Ok OC_Debugging
  | 3 => Ok (OC_Reserved 3)
  | _ => Panic
  end.

(** src/ip/v4/option.rs:270-278 (Into) *)
Definition v4opt_class_into (self : v4opt_class) : N :=
  match self with
  | OC_Control => 0
  | OC_Debugging => 2
  | OC_Reserved n => n
  end.
