-Q theories Verif
theories/AcceptModel.v
theories/AcceptProps.v
theories/AccountModel.v
theories/AccountProofs.v
theories/AccountProps.v
theories/AccountSpec.v
theories/AdmitModel.v
theories/AdmitProofs.v
theories/AnswerModel.v
theories/AnswerProofs.v
theories/AnswerProps.v
theories/AnswerSpec.v
theories/AuthorityModel.v
theories/AuthorityProofs.v
theories/AuthorityProps.v
theories/AuthoritySpec.v
theories/Base.v
theories/BridgeModel.v
theories/BridgeProofs.v
theories/BridgeProps.v
theories/BridgeSpec.v
theories/BrowserModel.v
theories/BrowserProofs.v
theories/BrowserProofs2.v
theories/BrowserProofs3.v
theories/BrowserProps.v
theories/BrowserSpec.v
theories/CborModel.v
theories/CborProofs.v
theories/CborProps.v
theories/CborSpec.v
theories/CertModel.v
theories/CertProofs.v
theories/CertProps.v
theories/CertSpec.v
theories/CleanupModel.v
theories/CleanupProofs.v
theories/CleanupProps.v
theories/CleanupSpec.v
theories/ConfigLinkProps.v
theories/ConfigModel.v
theories/ConfigProofs.v
theories/ConfigProofs2.v
theories/ConfigProofs3.v
theories/ConfigProofs4.v
theories/ConfigProps.v
theories/ConfigSpec.v
theories/ConnModel.v
theories/ConnProofs.v
theories/ConnProps.v
theories/ConnSpec.v
theories/ConsoleModel.v
theories/ConsoleProofs.v
theories/ConsoleProps.v
theories/ConsoleSpec.v
theories/CounterModel.v
theories/CounterProofs.v
theories/CounterProps.v
theories/CounterSpec.v
theories/DialModel.v
theories/DialProofs.v
theories/DialProps.v
theories/DiscoveryModel.v
theories/DiscoveryProofs.v
theories/DiscoveryProps.v
theories/DiscoverySpec.v
theories/EndpointModel.v
theories/EndpointProps.v
theories/ForwardModel.v
theories/ForwardProofs.v
theories/ForwardProps.v
theories/ForwardSpec.v
theories/HeadersModel.v
theories/HeadersProofs.v
theories/HeadersProps.v
theories/HeadersSpec.v
theories/HelloModel.v
theories/HelloProofs.v
theories/HelloProps.v
theories/HelloSpec.v
theories/HttpModel.v
theories/HttpProofs.v
theories/HttpProofs2.v
theories/HttpProps.v
theories/HttpSpec.v
theories/IPModel.v
theories/IPProofs.v
theories/IPSpec.v
theories/JwksModel.v
theories/JwksProofs.v
theories/JwksProps.v
theories/JwksSpec.v
theories/JwtModel.v
theories/JwtProofs.v
theories/JwtProofs2.v
theories/JwtProps.v
theories/JwtSpec.v
theories/KeygenModel.v
theories/KeygenProofs.v
theories/KeygenProps.v
theories/KeygenSpec.v
theories/KeysProofs.v
theories/LifeModel.v
theories/LifeProofs.v
theories/LifeProofs2.v
theories/LifeProps.v
theories/LifeSpec.v
theories/LimitModel.v
theories/LimitProofs.v
theories/LimitProps.v
theories/LimitSpec.v
theories/LogModel.v
theories/LogProofs.v
theories/LogProps.v
theories/LogSpec.v
theories/LoginModel.v
theories/LoginProofs.v
theories/LoginProofs2.v
theories/LoginProps.v
theories/LoginSpec.v
theories/MainModel.v
theories/MainProofs.v
theories/MainProps.v
theories/MainSpec.v
theories/OauthDirProps.v
theories/OauthModel.v
theories/OauthProofs.v
theories/OauthProps.v
theories/OauthSpec.v
theories/OcspGetModel.v
theories/OcspGetProps.v
theories/OcspModel.v
theories/OcspProofs.v
theories/OcspProps.v
theories/OcspSpec.v
theories/PagesModel.v
theories/PagesProofs.v
theories/PagesProps.v
theories/PagesSpec.v
theories/PasskeyHttpModel.v
theories/PasskeyHttpProofs.v
theories/PasskeyHttpProofs2.v
theories/PasskeyHttpProps.v
theories/PasskeyHttpSpec.v
theories/PasskeyModel.v
theories/PasskeyProofs.v
theories/PasskeyProofs2.v
theories/PasskeyProofs3.v
theories/PasskeyProps.v
theories/PasskeySpec.v
theories/PathModel.v
theories/PathProofs.v
theories/PathProps.v
theories/PathSpec.v
theories/PemModel.v
theories/PemProofs.v
theories/PemProps.v
theories/PemSpec.v
theories/PkiModel.v
theories/PkiProofs.v
theories/PkiProofs2.v
theories/PkiProofs3.v
theories/PkiProofs4.v
theories/PkiProps.v
theories/PkiSpec.v
theories/PkiWebModel.v
theories/PkiWebProofs.v
theories/PkiWebProps.v
theories/PkiWebSpec.v
theories/PoolModel.v
theories/PoolProps.v
theories/ProxyHdrModel.v
theories/ProxyHdrProofs.v
theories/ProxyHdrProps.v
theories/ProxyHdrSpec.v
theories/QuicModel.v
theories/QuicProofs.v
theories/QuicProofs2.v
theories/QuicProofs3.v
theories/QuicProofs4.v
theories/QuicProofs5.v
theories/QuicProps.v
theories/QuicSpec.v
theories/ReauthModel.v
theories/ReauthProofs.v
theories/ReauthProps.v
theories/ReauthSpec.v
theories/ReconfModel.v
theories/ReconfProofs.v
theories/ReconfProps.v
theories/RefreshModel.v
theories/RefreshProofs.v
theories/RefreshProps.v
theories/RefreshSpec.v
theories/ReloadModel.v
theories/ReloadProofs.v
theories/ReloadProps.v
theories/ReloadSpec.v
theories/RouteModel.v
theories/RouteProofs.v
theories/RouteProps.v
theories/RouteSpec.v
theories/SamlModel.v
theories/SamlProofs.v
theories/SamlProofs2.v
theories/SamlProps.v
theories/SamlSpec.v
theories/ScriptModel.v
theories/ScriptProofs.v
theories/ScriptProofs2.v
theories/ScriptProofs3.v
theories/ScriptProofs4.v
theories/ScriptProps.v
theories/ScriptSpec.v
theories/SettingsModel.v
theories/SettingsProps.v
theories/ShutdownModel.v
theories/ShutdownProofs.v
theories/ShutdownProps.v
theories/ShutdownSpec.v
theories/SigModel.v
theories/SigProofs.v
theories/SigProps.v
theories/SigSpec.v
theories/SignModel.v
theories/SignProps.v
theories/SignSpec.v
theories/SshModel.v
theories/SshProps.v
theories/StreamListModel.v
theories/StreamListProofs.v
theories/StreamListProps.v
theories/StreamListSpec.v
theories/StreamModel.v
theories/StreamProofs.v
theories/StreamProofs2.v
theories/StreamProofs3.v
theories/StreamProps.v
theories/StreamSpec.v
theories/TlsClientModel.v
theories/TlsClientProofs.v
theories/TlsClientProps.v
theories/TlsClientSpec.v
theories/TokenModel.v
theories/TokenProofs.v
theories/TokenProps.v
theories/TokenSpec.v
theories/TrustModel.v
theories/TrustProofs.v
theories/TrustProps.v
theories/TrustSpec.v
theories/VisitIdProps.v
theories/VisitLoginProps.v
theories/VisitProps.v
theories/VisitSpec.v
theories/WholeModel.v
theories/WholeProofs.v
theories/WholeProps.v
theories/WholeSpec.v
theories/WsModel.v
theories/WsProofs.v
theories/WsProps.v
theories/WsSpec.v
theories/XfccModel.v
theories/XfccProofs.v
theories/XfccProps.v
theories/XfccSpec.v
