-Q theories Verif
theories/Base.v
theories/Model_Blobs.v
theories/Model_Cli.v
theories/Model_Commands.v
theories/Model_Conflict.v
theories/Model_Crypt.v
theories/Model_Csv.v
theories/Model_Dialogue.v
theories/Model_Editor.v
theories/Model_Export.v
theories/Model_Fold.v
theories/Model_Fuzzy.v
theories/Model_GoStr.v
theories/Model_GoStr2.v
theories/Model_Help.v
theories/Model_Hosts.v
theories/Model_Import.v
theories/Model_Json.v
theories/Model_Layout.v
theories/Model_Links.v
theories/Model_Merge.v
theories/Model_Merging.v
theories/Model_Otp.v
theories/Model_PassGen.v
theories/Model_Pinentry.v
theories/Model_Pkcs7.v
theories/Model_Repl.v
theories/Model_Scp.v
theories/Model_Session.v
theories/Model_Ssh.v
theories/Model_Sync.v
theories/Model_Syncing.v
theories/Model_Time.v
theories/Model_TxLog.v
theories/Model_UI.v
theories/Model_Url.v
theories/Proof_Blobs.v
theories/Proof_Blobs2.v
theories/Proof_Cli.v
theories/Proof_Cli2.v
theories/Proof_Crypt.v
theories/Proof_Crypt2.v
theories/Proof_Crypt3.v
theories/Proof_Crypt4.v
theories/Proof_Crypt5.v
theories/Proof_Crypt6.v
theories/Proof_Crypt7.v
theories/Proof_Csv.v
theories/Proof_Csv2.v
theories/Proof_Dialogue.v
theories/Proof_Editor.v
theories/Proof_Export.v
theories/Proof_Fleet.v
theories/Proof_Fold.v
theories/Proof_Fuzzy.v
theories/Proof_GoStr.v
theories/Proof_History.v
theories/Proof_Hosts.v
theories/Proof_Import.v
theories/Proof_Json.v
theories/Proof_Json2.v
theories/Proof_Json3.v
theories/Proof_JsonText.v
theories/Proof_Layout.v
theories/Proof_Lines.v
theories/Proof_Lines2.v
theories/Proof_Links.v
theories/Proof_Links2.v
theories/Proof_Main.v
theories/Proof_Merge.v
theories/Proof_Merge2.v
theories/Proof_Merge3.v
theories/Proof_Merge4.v
theories/Proof_Multi.v
theories/Proof_Otp.v
theories/Proof_Otp2.v
theories/Proof_Otp3.v
theories/Proof_Otp4.v
theories/Proof_OtpUrl.v
theories/Proof_PassGen.v
theories/Proof_PassGen2.v
theories/Proof_Pinentry.v
theories/Proof_Pkcs7.v
theories/Proof_Repl.v
theories/Proof_Repl2.v
theories/Proof_Repl3.v
theories/Proof_Repl4.v
theories/Proof_Repl5.v
theories/Proof_Repl6.v
theories/Proof_Repl7.v
theories/Proof_Runs.v
theories/Proof_Scp.v
theories/Proof_Secrets.v
theories/Proof_Session.v
theories/Proof_Session2.v
theories/Proof_Session3.v
theories/Proof_Session4.v
theories/Proof_Session5.v
theories/Proof_Session6.v
theories/Proof_SessionEx.v
theories/Proof_Ssh.v
theories/Proof_Sync.v
theories/Proof_Sync2.v
theories/Proof_Sync3.v
theories/Proof_Sync4.v
theories/Proof_Sync5.v
theories/Proof_Sync6.v
theories/Proof_Sync7.v
theories/Proof_SyncUsers.v
theories/Proof_SyncUsers2.v
theories/Proof_SyncUsers3.v
theories/Proof_Syncing.v
theories/Proof_Syncing2.v
theories/Proof_Syncing3.v
theories/Proof_Syncing4.v
theories/Proof_Syncing5.v
theories/Proof_Tamper.v
theories/Proof_Tests.v
theories/Proof_Text.v
theories/Proof_Text2.v
theories/Proof_Text3.v
theories/Proof_Time.v
theories/Proof_Time2.v
theories/Proof_Trim.v
theories/Proof_Twins.v
theories/Proof_TxLog.v
theories/Proof_Url.v
theories/Proof_UrlText.v
theories/Proof_Utf8.v
theories/Proof_Weak.v
theories/Proof_Windows.v
theories/Props_Blobs.v
theories/Props_Cli.v
theories/Props_Crypt.v
theories/Props_Csv.v
theories/Props_Dialogue.v
theories/Props_Editor.v
theories/Props_Export.v
theories/Props_Fleet.v
theories/Props_Fold.v
theories/Props_Fuzzy.v
theories/Props_History.v
theories/Props_Hosts.v
theories/Props_Import.v
theories/Props_Json.v
theories/Props_Layout.v
theories/Props_Lines.v
theories/Props_Links.v
theories/Props_Main.v
theories/Props_Merge.v
theories/Props_Multi.v
theories/Props_Otp.v
theories/Props_OtpUrl.v
theories/Props_PassGen.v
theories/Props_Pinentry.v
theories/Props_Pkcs7.v
theories/Props_Repl.v
theories/Props_Runs.v
theories/Props_Scp.v
theories/Props_Secrets.v
theories/Props_Session.v
theories/Props_Ssh.v
theories/Props_Sync.v
theories/Props_SyncUsers.v
theories/Props_Syncing.v
theories/Props_Tamper.v
theories/Props_Tests.v
theories/Props_Text.v
theories/Props_Twins.v
theories/Props_TxLog.v
theories/Props_UrlText.v
theories/Props_Windows.v
theories/Spec_Blobs.v
theories/Spec_Cli.v
theories/Spec_Crypt.v
theories/Spec_Csv.v
theories/Spec_Dialogue.v
theories/Spec_Editor.v
theories/Spec_Export.v
theories/Spec_Fleet.v
theories/Spec_Fuzzy.v
theories/Spec_History.v
theories/Spec_Hosts.v
theories/Spec_Import.v
theories/Spec_Json.v
theories/Spec_Layout.v
theories/Spec_Lines.v
theories/Spec_Links.v
theories/Spec_Main.v
theories/Spec_Merge.v
theories/Spec_Multi.v
theories/Spec_Otp.v
theories/Spec_PassGen.v
theories/Spec_Pinentry.v
theories/Spec_Pkcs7.v
theories/Spec_Repl.v
theories/Spec_Runs.v
theories/Spec_Scp.v
theories/Spec_Secrets.v
theories/Spec_Session.v
theories/Spec_Ssh.v
theories/Spec_Sync.v
theories/Spec_SyncUsers.v
theories/Spec_Syncing.v
theories/Spec_Tamper.v
theories/Spec_Twins.v
theories/Spec_TxLog.v
theories/Spec_UrlText.v
theories/Spec_Windows.v
