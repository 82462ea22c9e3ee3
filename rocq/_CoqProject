-Q theories Verif
theories/AddrModel.v
theories/AddrProof.v
theories/AddrProps.v
theories/AddrSpec.v
theories/AgentModel.v
theories/AgentProof.v
theories/AgentProof2.v
theories/AgentProof3.v
theories/AgentProof4.v
theories/AgentProof5.v
theories/AgentProof6.v
theories/AgentProof7.v
theories/AgentProps.v
theories/AgentSpec.v
theories/ArgvModel.v
theories/ArgvProof.v
theories/ArgvProps.v
theories/ArgvSpec.v
theories/AtomicioModel.v
theories/AtomicioProof.v
theories/AtomicioProps.v
theories/AtomicioSpec.v
theories/Auth2Model.v
theories/Auth2Proof.v
theories/Auth2Proof2.v
theories/Auth2Props.v
theories/Auth2Spec.v
theories/AuthOptModel.v
theories/AuthOptProof.v
theories/AuthOptProof2.v
theories/AuthOptProof3.v
theories/AuthOptProps.v
theories/AuthOptSpec.v
theories/Base.v
theories/Base64Model.v
theories/Base64Proof.v
theories/Base64Props.v
theories/Base64Spec.v
theories/BitmapModel.v
theories/BitmapProof.v
theories/BitmapProps.v
theories/BitmapSpec.v
theories/Bits.v
theories/CertModel.v
theories/CertProof.v
theories/CertProof2.v
theories/CertProps.v
theories/CertSpec.v
theories/ChachaModel.v
theories/ChachaProof.v
theories/ChachaProof2.v
theories/ChachaProof3.v
theories/ChachaProps.v
theories/ChachaSpec.v
theories/ChanModel.v
theories/ChanProof1.v
theories/ChanProof2.v
theories/ChanProof3.v
theories/ChanProof4.v
theories/ChanProof5.v
theories/ChanProof6.v
theories/ChanProps.v
theories/ChanSpec.v
theories/Dec.v
theories/ExchModel.v
theories/ExchProof.v
theories/ExchProof2.v
theories/ExchProof3.v
theories/ExchProof4.v
theories/ExchProps.v
theories/ExchSpec.v
theories/ExpandModel.v
theories/ExpandProof.v
theories/ExpandProps.v
theories/ExpandSpec.v
theories/FlowModel.v
theories/FlowProof.v
theories/FlowProps.v
theories/FlowSpec.v
theories/HostbModel.v
theories/HostbProof.v
theories/HostbProof2.v
theories/HostbProps.v
theories/HostbSpec.v
theories/HostcheckModel.v
theories/HostcheckProof.v
theories/HostcheckProof2.v
theories/HostcheckProof3.v
theories/HostcheckProof4.v
theories/HostcheckProof5.v
theories/HostcheckProps.v
theories/HostcheckSpec.v
theories/HostfileModel.v
theories/HostfileProof.v
theories/HostfileProof2.v
theories/HostfileProof3.v
theories/HostfileProps.v
theories/HostfileProps2.v
theories/HostfileSpec.v
theories/IdentModel.v
theories/IdentProof.v
theories/IdentProps.v
theories/IdentSpec.v
theories/KexModel.v
theories/KexNamesModel.v
theories/KexNamesProof.v
theories/KexNamesProps.v
theories/KexNamesSpec.v
theories/KexProof.v
theories/KexProps.v
theories/KexSpec.v
theories/KeyModel.v
theories/KeyProof.v
theories/KeyProof2.v
theories/KeyProof3.v
theories/KeyProps.v
theories/KeySpec.v
theories/KrlModel.v
theories/KrlProof.v
theories/KrlProof2.v
theories/KrlProof3.v
theories/KrlProof4.v
theories/KrlProof5.v
theories/KrlProps.v
theories/KrlReadProof.v
theories/KrlReadProof2.v
theories/KrlReadProps.v
theories/KrlReadSpec.v
theories/KrlSpec.v
theories/LoginModel.v
theories/LoginProps.v
theories/LoginSpec.v
theories/MatchModel.v
theories/MatchProof.v
theories/MatchProps.v
theories/MatchSpec.v
theories/MiscNumModel.v
theories/MiscNumProof.v
theories/MiscNumProps.v
theories/MiscNumSpec.v
theories/MonitorModel.v
theories/MonitorProof.v
theories/MonitorProof2.v
theories/MonitorProof3.v
theories/MonitorProof4.v
theories/MonitorProps.v
theories/MonitorSpec.v
theories/PacketModel.v
theories/PacketProof.v
theories/PacketProps.v
theories/PacketSpec.v
theories/PacketToy.v
theories/PermitModel.v
theories/PermitProof.v
theories/PermitProps.v
theories/PermitSpec.v
theories/PolyModel.v
theories/PolyProof.v
theories/PolyProof2.v
theories/PolyProof3.v
theories/PolySpec.v
theories/PrivModel.v
theories/PrivProof.v
theories/PrivProof2.v
theories/PrivProof3.v
theories/PrivProof4.v
theories/PrivProps.v
theories/PrivSpec.v
theories/SafepModel.v
theories/SafepProof.v
theories/SafepProps.v
theories/SafepSpec.v
theories/SclientModel.v
theories/SclientProof.v
theories/SclientProof2.v
theories/SclientProof3.v
theories/SclientProof4.v
theories/SclientProps.v
theories/SclientSpec.v
theories/ScpModel.v
theories/ScpProof.v
theories/ScpProof2.v
theories/ScpProof3.v
theories/ScpProps.v
theories/ScpSpec.v
theories/ServModel.v
theories/ServProof.v
theories/ServProof2.v
theories/ServProof3.v
theories/ServProof4.v
theories/ServProof5.v
theories/ServProof6.v
theories/ServProps.v
theories/ServSpec.v
theories/SftpModel.v
theories/SftpProof.v
theories/SftpProof2.v
theories/SftpProof3.v
theories/SftpProof4.v
theories/SftpProof5.v
theories/SftpProof6.v
theories/SftpProof7.v
theories/SftpProof8.v
theories/SftpProof9.v
theories/SftpProps.v
theories/SftpSpec.v
theories/SigModel.v
theories/SigProof.v
theories/SigProof2.v
theories/SigProof3.v
theories/SigProps.v
theories/SigSpec.v
theories/SocksModel.v
theories/SocksProof.v
theories/SocksProof2.v
theories/SocksProps.v
theories/SocksSpec.v
theories/SrclimitModel.v
theories/SrclimitProof.v
theories/SrclimitProof2.v
theories/SrclimitProof3.v
theories/SrclimitProof4.v
theories/SrclimitProof5.v
theories/SrclimitProof6.v
theories/SrclimitProps.v
theories/SrclimitSpec.v
theories/SshbufHeapModel.v
theories/SshbufHeapProof.v
theories/SshbufHeapProps.v
theories/SshbufHeapSpec.v
theories/SshbufModel.v
theories/SshbufProof.v
theories/SshbufProps.v
theories/SshbufSpec.v
theories/StrictModel.v
theories/StrictProof.v
theories/StrictProps.v
theories/StrictSpec.v
theories/SuploadModel.v
theories/SuploadProof.v
theories/SuploadProof2.v
theories/SuploadProof3.v
theories/SuploadProof4.v
theories/SuploadProps.v
theories/SuploadSpec.v
theories/Text.v
theories/TtyModel.v
theories/TtyProof.v
theories/TtyProps.v
theories/TtySpec.v
theories/UtfModel.v
theories/UtfProof.v
theories/UtfProof2.v
theories/UtfProps.v
theories/UtfSpec.v
theories/VisModel.v
theories/VisProof.v
theories/VisProps.v
theories/VisSpec.v
theories/WireModel.v
theories/WireProof.v
theories/WireProps.v
theories/WireSpec.v
theories/XcookieModel.v
theories/XcookieProof.v
theories/XcookieProof2.v
theories/XcookieProps.v
theories/XcookieSpec.v
