-Q theories Verif
theories/Trace.v
theories/WorkQueue_Model.v
theories/WorkQueue_Spec.v
theories/WorkQueue_Proofs.v
theories/P_WorkQueue.v
theories/Router_Model.v
theories/Router_Spec.v
theories/Router_Proofs.v
theories/P_Router.v
theories/ProxyLog_Model.v
theories/ProxyLog_Spec.v
theories/ProxyLog_Proofs.v
theories/P_ProxyLog.v
theories/Gateway_Model.v
theories/Gateway_Inv.v
theories/Gateway_Steps.v
theories/Gateway_Steps2.v
theories/Gateway_Steps3.v
theories/Gateway_Steps4.v
theories/Gateway_Sync.v
theories/Gateway_Restart.v
theories/Gateway_Acts.v
theories/Gateway_Track.v
theories/Gateway_Busy.v
theories/Gateway_Spec.v
theories/Gateway_Hist.v
theories/Gateway_Ops.v
theories/Gateway_Proofs.v
theories/Gateway_Proofs2.v
theories/Gateway_Proofs3.v
theories/P_Gateway.v
theories/Gateway_Spec2.v
theories/Gateway_Status.v
theories/P_Gateway2.v
theories/Gateway_Queue.v
theories/Gateway_Spec3.v
theories/Gateway_Live.v
theories/Gateway_Live2.v
theories/Gateway_Size.v
theories/P_Gateway3.v
theories/Sni_Model.v
theories/Sni_Spec.v
theories/Sni_Proofs.v
theories/P_Sni.v
theories/Json_Model.v
theories/Json_Proofs.v
theories/Api_Model.v
theories/Api_Spec.v
theories/Api_Proofs.v
theories/Api_Proofs2.v
theories/P_Api.v
theories/Options_Model.v
theories/Options_Spec.v
theories/Options_Proofs.v
theories/P_Options.v
theories/Util_Model.v
theories/Util_Spec.v
theories/Util_Proofs.v
theories/Util_Proofs2.v
theories/Util_Proofs3.v
theories/P_Util.v
theories/Config_Model.v
theories/Config_Spec.v
theories/Config_Proofs.v
theories/P_Config.v
theories/Kube_Model.v
theories/Kube_Spec.v
theories/Kube_Proofs.v
theories/Kube_Proofs2.v
theories/Kube_Proofs3.v
theories/Kube_Proofs4.v
theories/Kube_Proofs5.v
theories/Kube_Proofs6.v
theories/P_Kube.v
theories/Informer_Model.v
theories/Informer_Spec.v
theories/Informer_Proofs.v
theories/P_Informer.v
theories/Phase_Model.v
theories/Phase_Spec.v
theories/Phase_Proofs.v
theories/Phase_Proofs2.v
theories/P_Phase.v
theories/Phase_Proofs3.v
theories/P_Phase2.v
theories/View_Model.v
theories/View_Spec.v
theories/View_Proofs.v
theories/P_View.v
theories/Adapt_Model.v
theories/Adapt_Spec.v
theories/Adapt_Proofs.v
theories/P_Adapt.v
theories/Beat_Model.v
theories/Beat_Spec.v
theories/Beat_Proofs.v
theories/P_Beat.v
theories/Report_Model.v
theories/Report_Spec.v
theories/Report_Proofs.v
theories/P_Report.v
theories/Idle_Model.v
theories/Idle_Spec.v
theories/Idle_Proofs.v
theories/P_Idle.v
theories/Client_Model.v
theories/Client_Spec.v
theories/Client_Proofs.v
theories/P_Client.v
theories/Check_Model.v
theories/Check_Spec.v
theories/Check_Proofs.v
theories/P_Check.v
theories/Cred_Model.v
theories/Cred_Spec.v
theories/Cred_Proofs.v
theories/P_Cred.v
theories/Launch_Model.v
theories/Launch_Spec.v
theories/Launch_Proofs.v
theories/P_Launch.v
theories/Manifest_Model.v
theories/Manifest_Spec.v
theories/Manifest_Proofs.v
theories/Manifest_Proofs2.v
theories/P_Manifest.v
theories/Files_Model.v
theories/Files_Spec.v
theories/Files_Proofs.v
theories/P_Files.v
theories/Proc_Model.v
theories/Proc_Spec.v
theories/Proc_Proofs.v
theories/P_Proc.v
theories/Addr_Model.v
theories/Addr_Spec.v
theories/Addr_Proofs.v
theories/P_Addr.v
theories/Session_Model.v
theories/Session_Spec.v
theories/Session_Proofs.v
theories/P_Session.v
theories/Super_Model.v
theories/Super_Spec.v
theories/Super_Proofs.v
theories/P_Super.v
theories/ProxyCmd_Model.v
theories/ProxyCmd_Spec.v
theories/ProxyCmd_Proofs.v
theories/P_ProxyCmd.v
theories/Wire_Model.v
theories/Wire_Spec.v
theories/Wire_Proofs.v
theories/Wire_Proofs2.v
theories/Wire_Proofs3.v
theories/P_Wire.v
theories/App_Model.v
theories/App_Spec.v
theories/App_Proofs.v
theories/App_Proofs2.v
theories/P_App.v
theories/World_Gw.v
theories/World_Model.v
theories/World_Spec.v
theories/World_Net.v
theories/World_Proofs.v
theories/World_Proofs2.v
theories/World_Proofs3.v
theories/World_Proofs4.v
theories/World_Proofs5.v
theories/P_World.v
theories/Fleet_Model.v
theories/Fleet_Spec.v
theories/Fleet_Gw.v
theories/Fleet_Proofs.v
theories/Fleet_Proofs2.v
theories/P_Fleet.v
theories/Ask_Model.v
theories/Ask_Spec.v
theories/Ask_Proofs.v
theories/Ask_Proofs2.v
theories/P_Ask.v
theories/KFleet_Model.v
theories/KFleet_Spec.v
theories/KFleet_Proofs.v
theories/P_KFleet.v
theories/Visit_Model.v
theories/Visit_Spec.v
theories/Visit_Proofs.v
theories/Visit_Live.v
theories/P_Visit.v
theories/KApi_Model.v
theories/KApi_Spec.v
theories/KApi_Proofs.v
theories/P_KApi.v
theories/Fault_Model.v
theories/Fault_Ok.v
theories/Fault_Good.v
theories/Fault_Steps.v
theories/Fault_Chain.v
theories/Fault_Spec.v
theories/Fault_Hist.v
theories/Fault_Proofs.v
theories/Fault_Adequacy.v
theories/Fault_Queue.v
theories/P_Fault.v
theories/Fault_Spec2.v
theories/Fault_Live.v
theories/P_FaultLive.v
theories/KLife_Model.v
theories/KLife_Spec.v
theories/KLife_Proofs.v
theories/KLife_Live.v
theories/KLife_Live2.v
theories/P_KLife.v
theories/KFlow_Spec.v
theories/KFlow_Proofs.v
theories/KFlow_Live.v
theories/P_KFlow.v
theories/Stamp_Model.v
theories/Stamp_Spec.v
theories/Stamp_Proofs.v
theories/P_Stamp.v
theories/Watch_Model.v
theories/Watch_Spec.v
theories/Watch_Proofs.v
theories/P_Watch.v
theories/Comm_Model.v
theories/Comm_Spec.v
theories/P_Comm.v
theories/Chart_Model.v
theories/Chart_Spec.v
theories/Chart_Proofs.v
theories/P_Chart.v
theories/Ids_Model.v
theories/Ids_Spec.v
theories/P_Ids.v
theories/Accept_Model.v
theories/Accept_Spec.v
theories/P_Accept.v
theories/Fit_Model.v
theories/Fit_Spec.v
theories/Fit_Proofs.v
theories/P_Fit.v
theories/Roles_Model.v
theories/P_Roles.v
theories/Skein_Model.v
theories/Skein_Proofs.v
theories/P_Skein.v
theories/Template_Model.v
theories/Template_Spec.v
theories/Template_Proofs.v
theories/P_Template.v
theories/Follow_Model.v
theories/Follow_Proofs.v
theories/P_Follow.v
theories/Form_Model.v
theories/Form_Proofs.v
theories/P_Form.v
theories/Quit_Model.v
theories/Quit_Proofs.v
theories/P_Quit.v
theories/Choose_Model.v
theories/Choose_Proofs.v
theories/P_Choose.v
theories/Keyword_Model.v
theories/Keyword_Proofs.v
theories/P_Keyword.v
theories/Access_Model.v
theories/Access_Proofs.v
theories/P_Access.v
