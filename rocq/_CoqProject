-Q theories Verif
theories/Base.v
theories/IdTracker.v
theories/ResourceManager.v
theories/SdfParser.v
theories/SdfProps.v
theories/MapOps.v
theories/SdfMatch.v
theories/Pfcp.v
theories/PfcpProps.v
theories/PfcpHistory.v
theories/PfcpReach.v
theories/PfcpRules.v
theories/PfcpCreate.v
theories/PfcpRemove.v
theories/PfcpReject.v
theories/Qer.v
theories/Csum.v
theories/Heartbeat.v
theories/Xdp.v
theories/XdpBase.v
theories/XdpProps.v
theories/XdpRules.v
theories/XdpFrames.v
theories/XdpEcho.v
theories/XdpEx.v
theories/XdpAccount.v
theories/EndToEnd.v
theories/PfcpInv.v
theories/PfcpAsked.v
theories/Stats.v
theories/Layout.v
theories/Rest.v
theories/RestSessions.v
theories/Config.v
theories/Causes.v
theories/GtpPath.v
theories/PfcpTeid.v
theories/PfcpKeys.v
theories/EndToEndLog.v
theories/Metrics.v
theories/PfcpAgain.v
theories/Smp.v
theories/Race.v
theories/InFlight.v
theories/Ping.v
theories/Pong.v
theories/XdpRate.v
theories/Billing.v
theories/Maps.v
theories/Chain.v
theories/Seid.v
theories/PfcpUpdate.v
theories/Usage.v
theories/RouteCache.v
theories/Ttl.v
theories/Filters.v
theories/Flows.v
theories/Lives.v
theories/Deletion.v
theories/Ids.v
theories/Capacity.v
theories/Window.v
theories/RestWrites.v
theories/SdfAgain.v
theories/Forgets.v
theories/Neighbours.v
theories/Order.v
theories/GtpTime.v
theories/Settings.v
theories/Fatal.v
theories/Stream.v
theories/Fresh.v
theories/Quota.v
theories/RestJson.v
theories/Whole.v
theories/Reconf.v
