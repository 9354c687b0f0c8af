*.lia.cache
.lia.cache
*.nia.cache
.nia.cache
*.nra.cache
.nra.cache
