-Q theories Verif
theories/Base.v
theories/Utf8.v
theories/Spec_Trim.v
theories/Spec_Numeral.v
theories/GoStrings.v
theories/GoStringsProof.v
theories/Base64.v
theories/Spec_Base64.v
theories/Base64Proof.v
theories/Float64.v
theories/Float64Proof.v
theories/Json.v
theories/Spec_Json.v
theories/JsonProof.v
theories/Civil.v
theories/Spec_Civil.v
theories/CivilProof.v
theories/Domain.v
theories/Crypto.v
theories/Spec_Crypto.v
theories/KeyService.v
theories/Path.v
theories/Fs.v
theories/Repos.v
theories/FsProof.v
theories/CryptoProof.v
theories/ItemService.v
theories/Session.v
theories/Spec_Domain.v
theories/DomainProof.v
theories/Spec_Item.v
theories/ItemProof.v
theories/SessionProof.v
theories/Properties_Domain.v
theories/Properties_Crypto.v
theories/Spec_Vault.v
theories/VaultProof.v
theories/JsonPrint.v
theories/Spec_Writer.v
theories/WriterProof.v
theories/Toy.v
theories/OpenProof.v
theories/Properties_Vault.v
theories/Properties_Layout.v
theories/Properties_Newlines.v
theories/Properties_Session.v
theories/World.v
theories/Config.v
theories/Updater.v
theories/WorldProof.v
theories/Cli.v
theories/CliProof.v
theories/ToyYaml.v
theories/Properties_Config.v
theories/FieldsProof.v
theories/UpdateProof.v
theories/RoundProof.v
theories/ThrottleProof.v
theories/Spec_Release.v
theories/Properties_Update.v
theories/Properties_Check.v
theories/CliEvents.v
theories/Properties_Cli.v
theories/Properties_Show.v
theories/Properties_Effects.v
theories/Properties_End.v
theories/Gui.v
theories/Spec_Gui.v
theories/GuiProof.v
theories/GuiRun.v
theories/Properties_Gui.v
theories/Properties_Gui2.v
theories/GuiWorld.v
theories/Properties_Gui3.v
theories/GuiCursor.v
theories/Properties_Gui4.v
theories/RealCrypto.v
theories/RealCryptoProof.v
theories/Properties_Real.v
theories/Properties_Cli2.v
theories/Properties_Version.v
theories/Properties_Item.v
theories/GoTime.v
theories/Properties_Time.v
theories/Shared.v
theories/Properties_Shared.v
theories/Properties_Release.v
theories/Properties_Keys.v
theories/Properties_Stored.v
theories/Args.v
theories/Spec_Args.v
theories/ArgsProof.v
theories/Properties_Args.v
theories/Timed.v
theories/TimedProof.v
theories/Properties_Timed.v
theories/Properties_Interrupt.v
theories/Center.v
theories/CenterProof.v
theories/Properties_Center.v
theories/Properties_TopLine.v
theories/Properties_Start.v
theories/Conc.v
theories/ConcProof.v
theories/Properties_Conc.v
theories/Properties_Exact.v
theories/Batch.v
theories/Spec_Batch.v
theories/BatchProof.v
theories/Properties_Batch.v
theories/RepeatProof.v
theories/Properties_Repeat.v
theories/Properties_Terminal.v
theories/Properties_Dialogue.v
theories/Properties_Upgrade.v
theories/Properties_Offline.v
theories/Properties_History.v
theories/Properties_Scroll.v
theories/Properties_Find.v
theories/Properties_Quit.v
theories/Properties_Title.v
